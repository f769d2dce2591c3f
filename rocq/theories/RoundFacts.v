(** Reading a document of cimwrite: every statement brings one slot of a copy
    to the value of the original. *)
From Coq Require Import String ZArith Lia.
From stdpp Require Import prelude gmap.
From Verif Require Import PyStr PyHeap Schema Assoc AssocSpec HeapFacts LinksFacts AssocFacts AddRemoveFacts CtorFacts
  HistorySpec HistoryFacts Names TabCIM14 TabCIM15 TabProfiles Tables TableSpec TableFacts BlankFacts Reader ReaderSpec
  ReaderFacts FrameFacts StatementFacts CreateFacts ReaderTabs CompatFacts ReadSound NumFacts DigitFacts ReadStepFacts ReadDocFacts.
From Verif Require Import XmlSpec XmlCalls WriteSpec WriteFacts WriteTables RoundSpec RoundTables RoundDocFacts.

(** *** Values *)
Lemma show_nat_body n : int_body (show_nat n) n ∧ ascii (show_nat n) = true.
Proof.
  destruct (show_nat_spec n) as (c & ds & E & Hd & Hv). rewrite E in *. clear E.
  assert (∀ s acc, Forall (λ c, is_digit c = true) s → int_digits acc true s = digits_val acc s) as H.
  { induction s as [|x s IH]; intros acc Hs; [done|]. apply Forall_cons in Hs as [Hx Hs]. cbn [int_digits digits_val]. rewrite Hx. by apply IH. }
  split.
  - apply parse_nat_iff. unfold parse_nat. apply Forall_cons in Hd as [Hc Hds]. cbn [int_digits]. rewrite Hc, H by done.
    cbn [digits_val] in Hv. by rewrite Hc in Hv.
  - apply forallb_forall. intros x Hx%elem_of_list_In. rewrite Forall_forall in Hd. apply Hd, is_digit_iff in Hx as (y & Hy & ->).
    apply N.ltb_lt. lia.
Qed.
Lemma show_int_literal z : int_literal (show_int z) z ∧ ascii (show_int z) = true.
Proof.
  destruct z as [|p|p]; cbn [show_int].
  - split; [|done]. exists [], [], (u "0"), [], 0%N. split_and!; [done|constructor|constructor|apply (ib_digit 0); lia|by left; split; [left|]].
  - destruct (show_nat_body (Npos p)) as [H1 H2]. split; [|done].
    exists [], [], (show_nat (Npos p)), [], (Npos p). rewrite app_nil_r. split_and!; [done|constructor|constructor|done|by left; split; [left|]].
  - destruct (show_nat_body (Npos p)) as [H1 H2]. split; [|by apply andb_true_iff].
    exists [], (u "-"), (show_nat (Npos p)), [], (Npos p). rewrite app_nil_r. split_and!; [done|constructor|constructor|done|by right].
Qed.
Lemma int_literal_data z : forallb data_char (show_int z) = true.
Proof.
  assert (∀ n, forallb data_char (show_nat n) = true) as H.
  { intros n. destruct (show_nat_spec n) as (c & ds & -> & Hd & _). apply forallb_forall. intros x Hx%elem_of_list_In.
    rewrite Forall_forall in Hd. apply Hd, is_digit_iff in Hx as (y & Hy & ->).
    unfold data_char. apply andb_true_iff. split; [|apply negb_true_iff, N.eqb_neq; lia]. unfold xml_char.
    repeat (rewrite orb_true_iff || rewrite andb_true_iff || rewrite N.leb_le || rewrite N.eqb_eq). lia. }
  destruct z; cbn [show_int]; [done|apply H|]. cbn [forallb]. by rewrite H.
Qed.
Lemma show_int_nonempty z : show_int z ≠ [].
Proof.
  assert (∀ n, show_nat n ≠ []) as H by (intros n; destruct (show_nat_spec n) as (c & ds & -> & _); done).
  destruct z; cbn [show_int]; done.
Qed.
(** The text of a value that differs from its default is read back as the value. *)
Lemma fits_converts pf fint dv v s cur : fits pf dv v → falsy_val dv = true → ¬ equal fint v dv → text_of v s →
  (cur = dv ∨ cur = v) → s ≠ [] ∧ converts pf cur s v ∧ forallb data_char s = true.
Proof.
  intros Hf Hz Hne Ht Hc. destruct Hf as [b b0|z z0|r r0 Hr Hrc Hpf|x s0 Hs].
  - destruct b; inversion Ht; subst; (split; [done|]); (split; [|done]); destruct Hc as [->| ->].
    1,2: constructor; exists 84%N, 114%N, 117%N, 101%N; by auto 10.
    all: apply cv_false; by intros (a & b & c & d & E & _).
  - inversion Ht; subst. split; [apply show_int_nonempty|]. split; [|apply int_literal_data].
    destruct (show_int_literal z) as [H1 H2]. destruct Hc as [->| ->]; by constructor.
  - inversion Ht; subst. split; [done|]. split; [|done]. destruct Hc as [->| ->]; by constructor.
  - inversion Ht; subst. cbn in Hz. apply str_eqb_eq in Hz as ->. split_and!; [intros ->; destruct Hne; constructor| |done].
    destruct Hc as [->| ->]; by constructor.
Qed.
Lemma fits_equal pf fint dv v : fits pf dv v → falsy_val dv = true → equal fint v dv → dv = v ∨ v = VFloat (u "-0.0") ∧ dv = VFloat (u "0.0").
Proof.
  intros Hf Hz He. destruct Hf as [b b0|z z0|r r0 Hr Hrc Hpf|x s0 Hs]; cbn in Hz.
  - apply negb_true_iff in Hz as ->. inversion He as [| | | |? ? w H1 H2 H3]; subst. inversion H2; subst. inversion H1; subst. by left.
  - apply Z.eqb_eq in Hz as ->. inversion He as [| | | |? ? w H1 H2 H3]; subst. inversion H2; subst. inversion H1; subst. by left.
  - apply str_eqb_eq in Hz as ->. inversion He as [| |? Hn|? ? H1 H2|? ? w H1 H2 H3]; subst; [by left| |by destruct (H3 _ _ eq_refl eq_refl)].
    apply elem_of_cons in H1 as [->|H1]; [by left|]. apply elem_of_list_singleton in H1 as ->. by right.
  - apply str_eqb_eq in Hz as ->. inversion He as [|? E| | |? ? w H1 H2 H3]; subst; [by left|]. inversion H1.
Qed.
Lemma fits_plain pf dv v : fits pf dv v → (∀ o, v ≠ VRef o) ∧ is_vlist v = false ∧ plain_val v = true.
Proof. by intros []. Qed.

(** *** The pass *)
Lemma assoc_NoDup {B} (d : list (pystr * B)) id v : NoDup (map fst d) → (id, v) ∈ d → assoc id d = Some v.
Proof.
  induction d as [|[k w] d IH]; cbn [map fst]; intros Hn Hin; [by apply elem_of_nil in Hin|].
  apply NoDup_cons in Hn as [Hk Hn]. cbn [assoc]. apply elem_of_cons in Hin as [[= -> ->]|Hin]; [by rewrite str_eqb_refl|].
  rewrite (proj2 (str_eqb_neq _ _)); [by apply IH|]. intros ->. apply Hk. apply elem_of_list_fmap. by exists (k, v).
Qed.

Section round.
Context (t : schema) (pm : list (name * name)) (Ht : (t, pm) ∈ tables) (pf : pystr → option pystr) (fint : pystr → option Z).
Context (h : heap) (d : dict) (HP : Portable t pm pf h d).
Context (d' : dict) (h1 : heap) (Hs1 : Sound t h1).
Context (Hkeys : map fst d' = map fst d).
Context (Hnew : ∀ id o, assoc id d = Some (VRef o) → ∃ o' ck, assoc id d' = Some (VRef o') ∧ cls_of h o = Some ck ∧
  cls_of h1 o' = Some ck ∧ ∀ ky, view h1 o' ky = bview t ck id ky).
Notation copy_of := (copy_of d d').
Notation value_copy := (value_copy d d').

Lemma dict_in id v : assoc id d = Some v ↔ (id, v) ∈ d.
Proof using HP. split; [apply assoc_in|]. apply assoc_NoDup, HP. Qed.
Lemma dict_obj id v : assoc id d = Some v → ∃ o c, v = VRef o ∧ sees t h o (u "UUID") (VStr id) ∧ cls_of h o = Some (c_key c) ∧
  find_cls t (c_key c) = Some c ∧ assoc (c_name c) pm = Some (c_key c) ∧ c_key c ∉ unconstructible.
Proof using HP.
  intros Hin%dict_in. destruct (po_ids _ _ _ _ _ HP _ _ Hin) as (o & -> & Hu & _).
  destruct (po_class _ _ _ _ _ HP _ _ Hin) as (c & ? & ? & ? & ?). eauto 10.
Qed.
Lemma copy_intro id o : assoc id d = Some (VRef o) → ∃ o', assoc id d' = Some (VRef o') ∧ copy_of o o'.
Proof using Hnew. intros H. destruct (Hnew _ _ H) as (o' & ck & H' & _). exists o'. split; [done|]. by exists id. Qed.
Lemma assoc_keys id : (∃ v, assoc id d' = Some v) → ∃ v, assoc id d = Some v.
Proof using Hkeys.
  intros [v Hv]. destruct (assoc id d) as [w|] eqn:E; [eauto|]. apply assoc_None in E. exfalso. apply E. change (id ∈ map fst d). rewrite <- Hkeys.
  apply elem_of_list_fmap. exists (id, v). split; [done|]. by apply assoc_in.
Qed.
(** Class and first view of a copy. *)
Lemma copy_facts o o' : copy_of o o' → ∃ id c, assoc id d = Some (VRef o) ∧ assoc id d' = Some (VRef o') ∧
  sees t h o (u "UUID") (VStr id) ∧ cls_of h o = Some (c_key c) ∧ cls_of h1 o' = Some (c_key c) ∧ find_cls t (c_key c) = Some c ∧
  assoc (c_name c) pm = Some (c_key c) ∧ c_key c ∉ unconstructible ∧ round_cls (mro t (c_key c)) = true ∧
  ∀ ky, view h1 o' ky = bview t (c_key c) id ky.
Proof using HP Hnew Ht.
  intros (id & H1 & H2). destruct (dict_obj _ _ H1) as (o2 & c & [= <-] & Hu & Hc & Hf & Hn & Hk).
  destruct (Hnew _ _ H1) as (o3 & ck & H3 & H4 & H5 & H6). rewrite H2 in H3. injection H3 as <-. rewrite Hc in H4. injection H4 as <-.
  exists id, c. split_and!; try done. by eapply round_ok.
Qed.
Lemma copy_inj o1 o2 o' : copy_of o1 o' → copy_of o2 o' → o1 = o2.
Proof using HP Hnew Ht.
  intros (id1 & c1 & A1 & _ & _ & _ & C1 & _ & N1 & U1 & _ & V1)%copy_facts (id2 & c2 & A2 & _ & _ & _ & C2 & _ & N2 & U2 & _ & V2)%copy_facts.
  specialize (V1 (Pub (u "UUID"))). specialize (V2 (Pub (u "UUID"))).
  rewrite (blank_id _ _ _ _ Ht N1 U1) in V1. rewrite (blank_id _ _ _ _ Ht N2 U2) in V2. rewrite V1 in V2. injection V2 as <-. congruence.
Qed.
Lemma copy_fun o o1 o2 : copy_of o o1 → copy_of o o2 → o1 = o2.
Proof using HP Hnew Ht.
  intros (id1 & c1 & A1 & B1 & S1 & _)%copy_facts (id2 & c2 & A2 & B2 & S2 & _)%copy_facts.
  pose proof (sees_det _ _ _ _ _ _ S1 S2) as [= <-]. congruence.
Qed.
Lemma value_copy_fun v w w' : value_copy v w → value_copy v w' → w = w'.
Proof using HP Hnew Ht.
  intros H1 H2. inversion H1 as [? N1|o o1 C1|o N1]; inversion H2 as [? N2|? o2 C2|? N2]; simplify_eq; try done; try (by destruct (N1 _ eq_refl));
    try (by destruct (N2 _ eq_refl)); try (by destruct (N1 _ C2)); try (by destruct (N2 _ C1)).
  f_equal. by eapply copy_fun.
Qed.
Lemma value_copy_plain v w : value_copy v w → (∀ o, v ≠ VRef o) → w = v.
Proof. intros [] Hn; try done; by edestruct Hn. Qed.
Lemma value_copy_ref v o' : value_copy v (VRef o') → ∃ o, v = VRef o ∧ copy_of o o'.
Proof. intros Hv. inversion Hv as [? Hn| |]; subst; [by edestruct Hn|]. eauto. Qed.

(** The slots the reader writes. *)
Definition writable (ck : name) (k : key) : Prop :=
  (∃ c a, c ∈ mro t ck ∧ a ∈ c_attrs c ∧ a ≠ u "UUID" ∧ k = Pub a) ∨
  (∃ c r, c ∈ mro t ck ∧ r ∈ c_refs c ∧ r ∉ c_many c ∧ k = read_slot (lookup_prop t ck) r).
Definition allowed (o' : nat) (k : key) (w : option ov) : Prop := ∃ o ck, copy_of o o' ∧ cls_of h o = Some ck ∧
  ((∃ v v', writable ck k ∧ view h o k = Some (OV v) ∧ value_copy v v' ∧ w = Some (OV v')) ∨
   ∃ q p, k = Priv q ∧ lookup_prop t ck q = Some (PManyOne p)).
Record Step (ha hb : heap) : Prop := {
  st_sound : Sound t hb;
  st_classes : same_classes ha hb;
  st_views : ∀ o k, view hb o k = view ha o k ∨ allowed o k (view hb o k)
}.
Lemma Step_refl ha : Sound t ha → Step ha ha.
Proof. intros. split; [done|by intros o|by left]. Qed.
Lemma Step_trans ha hb hc : Step ha hb → Step hb hc → Step ha hc.
Proof.
  intros [A1 A2 A3] [B1 B2 B3]. split; [done|intros o; by rewrite B2, A2|]. intros o k.
  destruct (B3 o k) as [E|?]; [|by right]. rewrite E. apply A3.
Qed.
(** Slot [k] of the copy of [o] has its final value. *)
Definition Done (hc : heap) (o : nat) (k : key) : Prop := ∃ o' v v', copy_of o o' ∧ view h o k = Some (OV v) ∧ value_copy v v' ∧
  view hc o' k = Some (OV v').
Lemma single_not_list o ck q p v : cls_of h o = Some ck → lookup_prop t ck q = Some (PManyOne p) → view h o (Priv q) ≠ Some (OV v).
Proof using HP.
  intros Hc Hl Hv. destruct (lk_coll _ _ (proj2 (so_consistent _ _ (po_sound _ _ _ _ _ HP))) o q p (OV v)) as (ys & ? & _); [|done|done].
  unfold pkind. by rewrite Hc.
Qed.
Lemma Done_step ha hb o k : Step ha hb → Done ha o k → Done hb o k.
Proof using HP Hnew Ht.
  intros HS (o' & v & v' & Hcp & Hv & Hvc & Hw). exists o', v, v'. split_and!; try done.
  destruct (st_views _ _ HS o' k) as [->|(o2 & ck & Hc2 & Hk & Hr)]; [done|].
  rewrite (copy_inj _ _ _ Hc2 Hcp) in *. destruct Hr as [(v2 & v2' & _ & Hv2 & Hvc2 & ->)|(q & p & -> & Hl)].
  - rewrite Hv in Hv2. injection Hv2 as <-. by rewrite (value_copy_fun _ _ _ Hvc Hvc2).
  - by destruct (single_not_list o ck q p v).
Qed.
(** A slot of a copy holds its first value or its final one. *)
Lemma slot_cases hc o o' k v : Step h1 hc → copy_of o o' → view h o k = Some (OV v) →
  view hc o' k = view h1 o' k ∨ ∃ v', value_copy v v' ∧ view hc o' k = Some (OV v').
Proof using HP Hnew Ht.
  intros HS Hcp Hv. destruct (st_views _ _ HS o' k) as [->|(o2 & ck & Hc2 & Hk & Hr)]; [by left|].
  rewrite (copy_inj _ _ _ Hc2 Hcp) in *. destruct Hr as [(v2 & v2' & _ & Hv2 & Hvc2 & ->)|(q & p & -> & Hl)].
  - rewrite Hv in Hv2. injection Hv2 as <-. right. eauto.
  - by destruct (single_not_list o ck q p v).
Qed.
Lemma copy_class hc o o' : Step h1 hc → copy_of o o' → cls_of hc o' = cls_of h o.
Proof using HP Hnew Ht.
  intros HS (id & c & _ & _ & _ & Hc & Hc1 & _)%copy_facts. by rewrite (st_classes _ _ HS), Hc1, Hc.
Qed.
(** A slot is written. *)
Lemma Step_slot ha hb o o' ck k v v' : Sound t hb → same_classes ha hb → copy_of o o' → cls_of h o = Some ck → writable ck k →
  view h o k = Some (OV v) → value_copy v v' → SetSlot (view ha) (view hb) o' k v' → Step ha hb.
Proof.
  intros Hs Hc Hcp Hck Hw Hv Hvc [H1 H2]. split; [done|done|]. intros z kz.
  destruct (decide ((z, kz) = (o', k))) as [[= -> ->]|Hne]; [|left; by apply H2].
  right. exists o, ck. split_and!; [done|done|]. left. eauto 10.
Qed.

Context (cim rdf : pystr) (Hcim : ∃ c r, cim = c :: r ∧ c ≠ 35%N) (f : nat).
Notation base := (u "{" ++ cim ++ u "}").
Notation F := (S (S f)).
Notation act p := (pel_elem base (pel_of rdf p)).

Lemma name_local c a : c ∈ t → (a ∈ c_attrs c ∨ a ∈ c_refs c) → after_last_dot (ptag c a) = a.
Proof using Ht.
  intros Hc Ha. unfold ptag. change (u "." ++ a) with (46%N :: a). apply after_dot. intros Hin.
  pose proof (names_in _ _ _ Ht Hc) as Hn. unfold names_b in Hn. apply andb_true_iff in Hn as [[_ H1]%andb_true_iff H2].
  assert (forallb id_char a = true) as Hf by (destruct Ha as [Ha|Ha]; [by apply (all_rows_ok _ _ _ H1)|by apply (all_rows_ok _ _ _ H2)]).
  by apply (all_rows_ok _ _ _ Hf) in Hin.
Qed.
(** The value of an attribute of a copy, before and after. *)
Lemma cur_attr hc o o' ck c a v : Step h1 hc → copy_of o o' → cls_of h o = Some ck → c ∈ mro t ck → a ∈ c_attrs c → a ≠ u "UUID" →
  view h o (Pub a) = Some (OV v) → (∀ y, v ≠ VRef y) →
  ∃ cur, plain_value t hc o' a cur ∧ (view h1 o' (Pub a) = Some (OV cur) ∨ cur = v).
Proof using HP Hnew Ht.
  intros HS Hcp Hck Hc Ha Hne Hv Hp. destruct (copy_facts _ _ Hcp) as (id & c0 & _ & _ & _ & Hc1 & Hc2 & Hf & Hn & Hu & Hr & Hb).
  rewrite Hck in Hc1. injection Hc1 as ->. destruct (round_attr_ok _ _ Hr c a Hc Ha Hne) as [(Hpub & Hl & _) _].
  destruct (tables_blank _ _ _ _ Ht Hn Hu) as [_ Hbp].
  destruct (Hbp id a c Hc Ha Hl) as (w & Hw & _). rewrite Hpub in Hw. rewrite <- Hb in Hw.
  assert (cls_of hc o' = Some (c_key c0)) as Hcc by (by rewrite (copy_class _ _ _ HS Hcp)).
  destruct (slot_cases _ _ _ _ _ HS Hcp Hv) as [E|(v' & Hvc & E)].
  - rewrite Hw in E. exists w. split; [|by left]. split; [done|]. by exists (c_key c0).
  - apply value_copy_plain in Hvc as ->; [|done]. exists v. split; [|by right]. split; [done|]. by exists (c_key c0).
Qed.
Lemma plain_step hc o o' ck c a v cur : Step h1 hc → copy_of o o' → cls_of h o = Some ck → c ∈ mro t ck → a ∈ c_attrs c → a ≠ u "UUID" →
  view h o (Pub a) = Some (OV v) → (∀ y, v ≠ VRef y) → is_vlist v = false → plain_value t hc o' a cur →
  ∃ hc', setattr t F (VRef o') a v hc = (inl tt, hc') ∧ Step hc hc' ∧ Done hc' o (Pub a).
Proof using HP Hnew Ht.
  intros HS Hcp Hck Hc Ha Hne Hv Hp Hl Hpv. destruct (plain_write t hc o' a cur v (S f) Hpv Hl) as (hc' & E & Hsc & Hset).
  exists hc'. split; [done|]. destruct (copy_facts _ _ Hcp) as (id & c0 & _ & _ & _ & Hc1 & Hc2 & Hf & Hn & Hu & Hr & Hb).
  rewrite Hck in Hc1. injection Hc1 as ->.
  pose proof (round_attr_ok _ _ Hr c a Hc Ha Hne) as [Hpl _].
  assert (cls_of hc o' = Some (c_key c0)) as Hcc by (by rewrite (copy_class _ _ _ HS Hcp)).
  pose proof (write_plain_sound t f hc o' (c_key c0) a v (st_sound _ _ HS) Hcc Hpl Hp Hl) as Hks. rewrite E in Hks.
  assert (value_copy v v) as Hvc by (by constructor).
  split.
  - eapply Step_slot; try done; [apply Hks|]. left. eauto 10.
  - exists o', v, v. split_and!; try done. apply Hset.
Qed.
Lemma sees_plain ck o a v : cls_of h o = Some ck → plain_attr t ck a → sees t h o a v → view h o (Pub a) = Some (OV v).
Proof.
  intros Hc (Hp & Hl & _) (ck' & Hc' & Hs). rewrite Hc in Hc'. injection Hc' as <-. rewrite Hl in Hs. by rewrite Hp in Hs.
Qed.
Lemma text_step hc o o' ck c a v dv s : Step h1 hc → copy_of o o' → cls_of h o = Some ck → c ∈ mro t ck → a ∈ c_attrs c → a ≠ u "UUID" →
  assoc a (c_enums c) = None → sees t h o a v → assoc a (c_defaults c) = Some dv → ¬ equal fint v dv → text_of v s →
  ∃ hc', set_property t F pf base rdf d' o' (act (PText (ptag c a) s)) hc = (inl tt, hc') ∧ Step hc hc' ∧ Done hc' o (Pub a).
Proof using HP Hnew Ht.
  intros HS Hcp Hck Hc Ha Hne He Hv Hd Hneq Htx.
  destruct (copy_facts _ _ Hcp) as (id & c0 & Hin & _ & _ & Hc1 & Hc2 & Hf & Hn & Hu & Hr & Hb). rewrite Hck in Hc1. injection Hc1 as ->.
  pose proof (round_attr_ok _ _ Hr c a Hc Ha Hne) as [Hpl Hdv]. rewrite He in Hdv. destruct Hdv as (dv' & Hd' & Hct & Hfz).
  rewrite Hd in Hd'. injection Hd' as <-.
  pose proof (po_attrs _ _ _ _ _ HP id o (c_key c0) c a v (proj1 (dict_in _ _) Hin) Hck Hc Ha Hne Hv) as Hfit. rewrite He in Hfit.
  specialize (Hfit dv Hd). apply (sees_plain _ _ _ _ Hck Hpl) in Hv. destruct (fits_plain _ _ _ Hfit) as (Hp1 & Hp2 & _).
  destruct (cur_attr _ _ _ _ _ _ _ HS Hcp Hck Hc Ha Hne Hv Hp1) as (cur & Hpv & Hcur).
  assert (cur = dv ∨ cur = v) as Hcur'.
  { destruct Hcur as [Hw| ->]; [left|by right]. rewrite Hb in Hw. destruct Hpl as (Hpub & Hl & _). rewrite <- Hpub in Hw.
    rewrite (blank_default _ _ _ _ Ht Hn Hu id c a dv Hc Ha Hne Hl Hct) in Hw. by injection Hw. }
  destruct (fits_converts _ _ _ _ _ _ Hfit Hfz Hneq Htx Hcur') as (Hs & Hcv & _).
  destruct (plain_step _ _ _ _ _ _ _ _ HS Hcp Hck Hc Ha Hne Hv Hp1 Hp2 Hpv) as (hc' & E & HS' & HD).
  exists hc'. split_and!; [|done|done]. unfold set_property. cbn [pel_of pel_elem p_attrs p_text e_attrs e_text].
  change (rdf_attr rdf "resource" []) with (@None pystr). cbv iota.
  assert (after_last_dot (local base (act (PText (ptag c a) s))) = a) as Hloc.
  { unfold local. cbn [pel_elem pel_of p_tag e_tag]. rewrite drop_app. apply name_local; [by eapply mro_sub|by left]. }
  cbn [pel_of pel_elem p_attrs p_text] in Hloc. rewrite Hloc. unfold set_text. rewrite (shows_found _ _ _ _ _ (plain_shows _ _ _ _ _ Hpv)).
  unfold swallow_type, bind. assert (text_opt s = Some s) as -> by (by destruct s). rewrite (convert_spec _ _ _ _ _ _ _ Hcv). by rewrite E.
Qed.
Lemma enum_step hc o o' ck c a v dt s : Step h1 hc → copy_of o o' → cls_of h o = Some ck → c ∈ mro t ck → a ∈ c_attrs c → a ≠ u "UUID" →
  assoc a (c_enums c) = Some dt → sees t h o a v → text_of v s →
  ∃ hc', set_property t F pf base rdf d' o' (act (PResource (ptag c a) (cim ++ dt ++ u "." ++ s))) hc = (inl tt, hc') ∧ Step hc hc' ∧ Done hc' o (Pub a).
Proof using HP Hnew Ht Hcim.
  intros HS Hcp Hck Hc Ha Hne He Hv Htx.
  destruct (copy_facts _ _ Hcp) as (id & c0 & Hin & _ & _ & Hc1 & Hc2 & Hf & Hn & Hu & Hr & Hb). rewrite Hck in Hc1. injection Hc1 as ->.
  pose proof (round_attr_ok _ _ Hr c a Hc Ha Hne) as [Hpl _].
  pose proof (po_attrs _ _ _ _ _ HP id o (c_key c0) c a v (proj1 (dict_in _ _) Hin) Hck Hc Ha Hne Hv) as Hfit. rewrite He in Hfit.
  destruct Hfit as (s' & -> & Hs3 & Hs2). assert (s' = s) as -> by (by inversion Htx). apply (sees_plain _ _ _ _ Hck Hpl) in Hv.
  destruct (cur_attr _ _ _ _ _ _ _ HS Hcp Hck Hc Ha Hne Hv) as (cur & Hpv & _); [done|].
  destruct (plain_step _ _ _ _ _ _ _ cur HS Hcp Hck Hc Ha Hne Hv) as (hc' & E & HS' & HD); [done|done|done|].
  exists hc'. split_and!; [|done|done]. unfold set_property.
  assert (after_last_dot (local base (act (PResource (ptag c a) (cim ++ dt ++ u "." ++ s)))) = a) as Hloc.
  { unfold local. cbn [pel_elem pel_of p_tag e_tag]. rewrite drop_app. apply name_local; [by eapply mro_sub|by left]. }
  cbv zeta. rewrite Hloc. cbn [pel_of pel_elem p_attrs p_text e_attrs]. rewrite rdf_attr_here.
  destruct Hcim as (c1 & r & -> & H35). cbn [app]. rewrite (proj2 (N.eqb_neq _ _) H35).
  unfold set_enum. rewrite (shows_found _ _ _ _ _ (plain_shows _ _ _ _ _ Hpv)).
  change (c1 :: r ++ dt ++ u "." ++ s) with ((c1 :: r) ++ dt ++ 46%N :: s). rewrite app_assoc, (rsplit_dot _ _ Hs2). done.
Qed.

(** References. *)
Lemma link_single ck p k : lookup_prop t ck p = Some k → link_kind k = true → many_kind k = false →
  ∃ c, c ∈ mro t ck ∧ p ∈ c_refs c ∧ p ∉ c_many c.
Proof using Ht.
  intros (c & Hc & Hin)%lookup_in_props Hl Hm. exists c. split; [done|]. pose proof (reader_row_ok t pm c Ht (mro_sub _ _ _ Hc)) as Hb.
  apply andb_true_iff in Hb as [_ Hb]. apply (all_rows_ok _ _ _ Hb) in Hin. cbv beta iota in Hin. rewrite Hl, Hm in Hin. cbn [negb orb] in Hin.
  apply andb_true_iff in Hin as [_ [Hr%BlankFacts.existsb_str Hn%negb_true_iff]%andb_true_iff]. split; [done|].
  intros Hx. apply BlankFacts.existsb_str in Hx. congruence.
Qed.
Lemma sees_slot ck o r x : cls_of h o = Some ck → sees t h o r (VRef x) →
  view h o (read_slot (lookup_prop t ck) r) = Some (OV (VRef x)).
Proof.
  intros Hc (ck' & Hc' & Hs). rewrite Hc in Hc'. injection Hc' as <-. unfold read_slot. destruct (lookup_prop t ck r) as [[]|]; try done.
  destruct Hs as (w & Hw & [[_ E]|[_ E]]); [|done]. subst w. unfold view. rewrite Hw. done.
Qed.
Lemma can_link ck o r x tk c : cls_of h o = Some ck → cls_of h x = Some tk → c ∈ mro t ck → r ∈ c_refs c → r ∉ c_many c →
  round_cls (mro t ck) = true → view h o (read_slot (lookup_prop t ck) r) = Some (OV (VRef x)) → links_to t ck r tk.
Proof using HP.
  intros Hc Hx Hcm Hr Hm Hrc Hv. destruct (round_ref_ok _ _ Hrc c r Hcm Hr Hm) as [Hpub Hk]. unfold links_to, read_slot in *.
  pose proof (proj2 (so_consistent _ _ (po_sound _ _ _ _ _ HP))) as HL.
  assert (∀ p, pkind t h o p = lookup_prop t ck p) as HK by (intros p; unfold pkind; by rewrite Hc).
  assert (∀ p, pkind t h x p = lookup_prop t tk p) as HKx by (intros p; unfold pkind; by rewrite Hx).
  assert (∀ p q, lookup_prop t ck p = Some (POneMany q) → view h o (Priv p) = Some (OV (VRef x)) → class_ends t ck p tk q) as Hone.
  { intros p q Hp Hv'. destruct (lk_single _ _ HL o p q _ (eq_trans (HK p) Hp) Hv') as [?|(x2 & ys & [= <-] & (H1 & p' & H2 & H3) & _)]; [done|].
    split; [done|]. exists p'. rewrite HKx in H2. split; [done|]. unfold resolves in H3. destruct H3 as [[-> _]|[cl H3]]; [by left|]. right. exists cl. by rewrite <- HK. }
  destruct (lookup_prop t ck r) as [[q|q|q|q| |q|p cl]|] eqn:Ek; try done.
  - by apply Hone.
  - destruct (lk_one_one _ _ HL o r q _ (eq_trans (HK r) Ek) Hv) as [?|(x2 & [= <-] & (_ & H2) & _)]; [done|]. by rewrite HKx in H2.
  - destruct Hk as [q Hq]. exists q. by apply Hone.
Qed.
Lemma blank_slot o o' ck c r : copy_of o o' → cls_of h o = Some ck → c ∈ mro t ck → r ∈ c_refs c → r ∉ c_many c →
  view h1 o' (read_slot (lookup_prop t ck) r) = Some (OV VNone).
Proof using HP Hnew Ht.
  intros Hcp Hck Hc Hr Hm. destruct (copy_facts _ _ Hcp) as (id & c0 & Hin & _ & _ & Hc1 & Hc2 & Hf & Hn & Hu & Hrc & Hb).
  rewrite Hck in Hc1. injection Hc1 as ->. rewrite Hb. by eapply blank_single.
Qed.
Lemma step_single ha hb o o' ck c r p q x x' tk : Step h1 ha → Sound t hb → same_classes ha hb → copy_of o o' → copy_of x x' →
  cls_of h o = Some ck → cls_of h x = Some tk → c ∈ mro t ck → r ∈ c_refs c → r ∉ c_many c → read_slot (lookup_prop t ck) r = Priv p →
  view h o (Priv p) = Some (OV (VRef x)) → view ha o' (Priv p) = Some (OV VNone) → class_ends t ck p tk q →
  SetSingle (view ha) (view hb) o' p q (VRef x') → Step ha hb.
Proof.
  intros HS Hs Hsc Hco Hcx Hck Htk Hc Hr Hm Hrs Hv Hnone (_ & p' & He & _) HE. split; [done|done|]. intros z k.
  destruct (decide ((z, k) = (o', Priv p))) as [[= -> ->]|Hne].
  { right. exists o, ck. split_and!; [done|done|]. left. exists (VRef x), (VRef x'). split_and!; [|done|by constructor|apply (ss_self _ _ _ _ _ _ HE)].
    right. by exists c, r. }
  destruct (decide ((z, k) = (x', Priv q))) as [[= -> ->]|Hne2].
  { right. exists x, tk. split_and!; [done|done|]. right. eauto. }
  left. apply (ss_frame _ _ _ _ _ _ HE); [done|]. intros ->. split; [|by rewrite Hnone]. intros [= ->]. done.
Qed.
Lemma step_pair ha hb o o' ck r q x x' tk : Step h1 ha → Sound t hb → same_classes ha hb → copy_of o o' → copy_of x x' →
  cls_of h o = Some ck → cls_of h x = Some tk → lookup_prop t ck r = Some (POneOne q) → 
  view h o (Priv r) = Some (OV (VRef x)) → view ha o' (Priv r) = Some (OV VNone) →
  SetPair (view ha) (view hb) o' r q (VRef x') → Step ha hb.
Proof using HP Hnew Ht.
  intros HS Hs Hsc Hco Hcx Hck Htk Hl Hv Hnone HE. split; [done|done|]. intros z k.
  pose proof (proj2 (so_consistent _ _ (po_sound _ _ _ _ _ HP))) as HL.
  assert (pkind t h o r = Some (POneOne q)) as HK by (unfold pkind; by rewrite Hck).
  destruct (lk_one_one _ _ HL o r q _ HK Hv) as [?|(x2 & [= <-] & (_ & Hq) & Hvx)]; [done|]. unfold pkind in Hq. rewrite Htk in Hq. cbn [mbind option_bind] in Hq.
  destruct (decide ((z, k) = (o', Priv r))) as [[= -> ->]|Hne].
  { right. exists o, ck. split_and!; [done|done|]. left. exists (VRef x), (VRef x'). split_and!; [|done|by constructor|apply (sp_self _ _ _ _ _ _ HE)].
    right. destruct (link_single _ _ _ Hl) as (c & ? & ? & ?); [done|done|]. exists c, r. split_and!; try done. unfold read_slot. by rewrite Hl. }
  destruct (decide ((z, k) = (x', Priv q))) as [[= -> ->]|Hne2].
  { right. exists x, tk. split_and!; [done|done|]. left. exists (VRef o), (VRef o'). split_and!; [|done|by constructor|by apply (sp_new _ _ _ _ _ _ HE)].
    right. destruct (link_single _ _ _ Hq) as (c & ? & ? & ?); [done|done|]. exists c, q. split_and!; try done. unfold read_slot. by rewrite Hq. }
  left. apply (sp_frame _ _ _ _ _ _ HE); [done| |].
  - intros ->. split; [|by rewrite Hnone]. intros [= ->]. done.
  - intros -> y [= <-] Hy. destruct (slot_cases _ _ _ _ _ HS Hcx Hvx) as [E|(v' & Hvc & E)].
    + destruct (link_single _ _ _ Hq) as (c & Hc1 & Hc2 & Hc3); [done|done|].
      pose proof (blank_slot x x' tk c q Hcx Htk Hc1 Hc2 Hc3) as Hbl. unfold read_slot in Hbl. rewrite Hq in Hbl. congruence.
    + rewrite Hy in E. injection E as <-. apply value_copy_ref in Hvc as (o2 & [= <-] & Hc2). apply Hne. by rewrite (copy_fun _ _ _ Hc2 Hco).
Qed.
Lemma ref_step hc o o' ck c r x iv s : Step h1 hc → copy_of o o' → cls_of h o = Some ck → c ∈ mro t ck → r ∈ c_refs c → r ∉ c_many c →
  sees t h o r (VRef x) → sees t h x (u "UUID") iv → text_of iv s →
  ∃ hc', set_property t F pf base rdf d' o' (act (PResource (ptag c r) (u "#" ++ s))) hc = (inl tt, hc') ∧ Step hc hc' ∧
    Done hc' o (read_slot (lookup_prop t ck) r).
Proof using HP Hnew Ht Hkeys.
  intros HS Hcp Hck Hc Hr Hm Hv Hi Htx.
  destruct (copy_facts _ _ Hcp) as (id & c0 & Hin & _ & _ & Hc1 & Hc2 & Hf & Hn & Hu & Hrc & Hb). rewrite Hck in Hc1. injection Hc1 as ->.
  set (ck := c_key c0) in *.
  destruct (po_refs _ _ _ _ _ HP id o ck c r x (proj1 (dict_in _ _) Hin) Hck Hc Hr Hm Hv) as (i & Hi' & _ & Huniq).
  pose proof (sees_det _ _ _ _ _ _ Hi Hi') as ->. inversion Htx; subst s. clear Hi' Htx.
  pose proof (sees_slot _ _ _ _ Hck Hv) as Hvs. set (k := read_slot (lookup_prop t ck) r) in *.
  pose proof (blank_slot _ _ _ _ _ Hcp Hck Hc Hr Hm) as Hbl. fold k in Hbl.
  assert (reference_elem base rdf (act (PResource (ptag c r) (u "#" ++ i))) r i) as Href.
  { split; [|unfold resource; cbn [pel_of pel_elem p_attrs e_attrs]; by rewrite rdf_attr_here].
    pose proof (pel_property base rdf (pel_of rdf (PResource (ptag c r) (u "#" ++ i)))) as Hp.
    destruct (pel_no_id rdf (PResource (ptag c r) (u "#" ++ i))) as [N1 N2]. specialize (Hp N1 N2). cbn [pel_of p_tag] in Hp.
    rewrite name_local in Hp; [done|by eapply mro_sub|by right]. }
  destruct (slot_cases _ _ _ _ _ HS Hcp Hvs) as [Ecur|Ecur]; [rewrite Hbl in Ecur|].
  all: destruct (assoc i d) as [w|] eqn:Ei.
  - (* to be set *)
    rewrite (Huniq _ eq_refl) in Ei. destruct (Hnew _ _ Ei) as (x' & tk & Ei' & Hx & Hx' & _).
    assert (copy_of x x') as Hcx by (by exists i).
    destruct (round_ref_ok _ _ Hrc c r Hc Hr Hm) as [Hpub Hk].
    pose proof (can_link _ _ _ _ _ _ Hck Hx Hc Hr Hm Hrc Hvs) as Hlk.
    assert (cls_of hc o' = Some ck) as Hcc by (by rewrite (copy_class _ _ _ HS Hcp)).
    assert (cls_of hc x' = Some tk) as Hcx' by (by rewrite (copy_class _ _ _ HS Hcx)).
    destruct (set_ref_effect t (tables_distinct_ends _ _ Ht) f hc d' o' ck r i x' tk (st_sound _ _ HS) Hcc Ei' Hcx' Hlk Hpub) as (hc' & E & Hsc & Hs' & Heff).
    { unfold k, read_slot in Ecur. destruct (lookup_prop t ck r) as [[]|]; try done. by rewrite Hpub in Ecur. }
    assert (value_copy (VRef x) (VRef x')) as Hvc by (by constructor).
    exists hc'. rewrite (reference_set base rdf t F pf d' o' _ r i hc Href), E. split; [done|].
    unfold ref_effect in Heff. unfold links_to in Hlk.
    assert (writable ck k) as Hwr by (right; by exists c, r). unfold k, read_slot in *.
    destruct (lookup_prop t ck r) as [[q|q|q|q| |q|p cl]|] eqn:Ek; try done.
    + rewrite decide_True in Heff by done. split.
      * eapply (step_single hc hc' o o' ck c r r q x x' tk); try done. unfold read_slot. by rewrite Ek.
      * exists o', (VRef x), (VRef x'). split_and!; try done. apply (ss_self _ _ _ _ _ _ Heff).
    + rewrite decide_True in Heff by done. split.
      * by eapply (step_pair hc hc' o o' ck r q x x' tk).
      * exists o', (VRef x), (VRef x'). split_and!; try done. apply (sp_self _ _ _ _ _ _ Heff).
    + specialize (Heff Ecur). split; [by eapply (Step_slot hc hc' o o' ck _ (VRef x) (VRef x'))|]. exists o', (VRef x), (VRef x'). split_and!; try done. apply Heff.
    + destruct (Heff Ecur) as (q & Hq & HE). destruct Hlk as [q2 Hce]. pose proof (proj1 Hce) as Hq2. rewrite Hq in Hq2. injection Hq2 as <-. split.
      * eapply (step_single hc hc' o o' ck c r p q x x' tk); try done. unfold read_slot. by rewrite Ek.
      * exists o', (VRef x), (VRef x'). split_and!; try done. apply (ss_self _ _ _ _ _ _ HE).
    + rewrite Hpub in *. specialize (Heff Ecur). split; [by eapply (Step_slot hc hc' o o' ck _ (VRef x) (VRef x'))|]. exists o', (VRef x), (VRef x'). split_and!; try done. apply Heff.
  - (* dangling *)
    exists hc. split; [|split; [apply Step_refl, HS|]].
    + eapply dangling_noop; [done|]. destruct (assoc i d') eqn:E'; [|done]. destruct (assoc_keys i) as [? ?]; [eauto|congruence].
    + exists o', (VRef x), VNone. split_and!; [done|done| |done]. constructor. intros x' (id2 & c2 & Hx2 & _ & Hs2 & _)%copy_facts.
      pose proof (sees_det _ _ _ _ _ _ Hi Hs2) as [= <-]. congruence.
  - (* set already *)
    rewrite (Huniq _ eq_refl) in Ei. destruct (Hnew _ _ Ei) as (x' & tk & Ei' & Hx & Hx' & _).
    assert (copy_of x x') as Hcx by (by exists i). destruct Ecur as (v' & Hvc & Ecur).
    assert (v' = VRef x') as -> by (eapply value_copy_fun; [done|by constructor]).
    exists hc. split; [|split; [apply Step_refl, HS|by exists o', (VRef x), (VRef x')]].
    rewrite (reference_set base rdf t F pf d' o' _ r i hc Href). unfold set_ref. rewrite (shows_found t hc o' r (VRef x')); [by rewrite Ei'|].
    exists ck. split; [by rewrite (copy_class _ _ _ HS Hcp)|]. destruct Hv as (ck2 & Hck2 & Hv). rewrite Hck in Hck2. injection Hck2 as <-.
    unfold k, read_slot in Ecur. destruct (lookup_prop t ck r) as [[]|]; try done. split; [done|].
    destruct Hv as (w2 & _ & [[Hcl E2]|[_ E2]]); [|done]. subst w2. cbn [val_cls] in *. by rewrite (copy_class _ _ _ HS Hcx).
  - (* set, but dangling *)
    destruct Ecur as (v' & Hvc & Ecur).
    exists hc. split; [|split; [apply Step_refl, HS|by exists o', (VRef x), v']].
    eapply dangling_noop; [done|]. destruct (assoc i d') eqn:E'; [|done]. destruct (assoc_keys i) as [? ?]; [eauto|congruence].
Qed.

(** *** All statements *)
(** Element [p] of the document brings slot [k] of the copy of [o] to its final value. *)
Inductive does (o : nat) : pelem → key → Prop :=
  | does_text ck c a v dv s : cls_of h o = Some ck → c ∈ mro t ck → a ∈ c_attrs c → a ≠ u "UUID" → assoc a (c_enums c) = None →
      sees t h o a v → assoc a (c_defaults c) = Some dv → ¬ equal fint v dv → text_of v s → does o (PText (ptag c a) s) (Pub a)
  | does_enum ck c a v dt s : cls_of h o = Some ck → c ∈ mro t ck → a ∈ c_attrs c → a ≠ u "UUID" → assoc a (c_enums c) = Some dt →
      sees t h o a v → text_of v s → does o (PResource (ptag c a) (cim ++ dt ++ u "." ++ s)) (Pub a)
  | does_ref ck c r x iv s : cls_of h o = Some ck → c ∈ mro t ck → r ∈ c_refs c → r ∉ c_many c → sees t h o r (VRef x) →
      sees t h x (u "UUID") iv → text_of iv s → does o (PResource (ptag c r) (u "#" ++ s)) (read_slot (lookup_prop t ck) r).
Lemma does_step hc o o' p k : Step h1 hc → copy_of o o' → does o p k →
  ∃ hc', set_property t F pf base rdf d' o' (act p) hc = (inl tt, hc') ∧ Step hc hc' ∧ Done hc' o k.
Proof using HP Hnew Ht Hcim Hkeys.
  intros HS Hcp [ck c a v dv s|ck c a v dt s|ck c r x iv s]; intros.
  - by eapply text_step.
  - by eapply enum_step.
  - by eapply ref_step.
Qed.
Lemma exec_step (sts : list (pystr * elem)) : (∀ id e, (id, e) ∈ sts → ∃ o p k, assoc id d = Some (VRef o) ∧ e = act p ∧ does o p k) →
  ∀ hc, Step h1 hc → ∃ h2, exec base rdf t F pf d' sts hc = (inl tt, h2) ∧ Step hc h2 ∧
  ∀ id o p k, (id, act p) ∈ sts → assoc id d = Some (VRef o) → does o p k → Done h2 o k.
Proof using HP Hnew Ht Hcim Hkeys.
  induction sts as [|[id e] sts IH]; intros Hall hc HS.
  { exists hc. split_and!; [done|apply Step_refl, HS|]. by intros ? ? ? ? ?%elem_of_nil. }
  destruct (Hall id e) as (o & p & k & Ho & -> & Hd); [left|]. destruct (copy_intro _ _ Ho) as (o' & Ho' & Hcp).
  destruct (does_step _ _ _ _ _ HS Hcp Hd) as (hb & Eb & HSb & _).
  assert (Step h1 hb) as HS1 by (by eapply Step_trans).
  destruct (IH (λ id e Hin, Hall id e (elem_of_list_further _ _ _ Hin)) hb HS1) as (h2 & E2 & HS2 & HD2).
  exists h2. split_and!; [|by eapply Step_trans|].
  - unfold exec. cbn [for_each]. unfold bind, exec1. cbn [fst snd]. rewrite Ho', Eb. exact E2.
  - intros id2 o2 p2 k2 [Heq|Hin]%elem_of_cons Ho2 Hd2; [|by eapply HD2].
    pose proof (f_equal fst Heq) as Eid. pose proof (f_equal snd Heq) as Hact. cbn [fst snd] in Eid, Hact. rewrite Eid in Ho2. clear Heq Eid.
    rewrite Ho in Ho2. injection Ho2 as <-. destruct (does_step _ _ _ _ _ HS Hcp Hd2) as (hb2 & Eb2 & _ & HDb). rewrite Hact, Eb in Eb2.
    injection Eb2 as <-. by eapply Done_step.
Qed.
Lemma listed_get {A B} (P : A → list B → Prop) l r x : listed P l r → x ∈ l → ∃ r', P x r' ∧ ∀ y, y ∈ r' → y ∈ r.
Proof.
  induction 1 as [|y l r r' Hy Hl IH]; [by intros ?%elem_of_nil|]. intros [->|Hx]%elem_of_cons.
  - exists r. split; [done|]. intros z Hz. apply elem_of_app. by left.
  - destruct (IH Hx) as (r2 & H1 & H2). exists r2. split; [done|]. intros z Hz. apply elem_of_app. right. by apply H2.
Qed.
(** The elements written for an object. *)
Lemma writes_does_cls o ck e p : cls_of h o = Some ck → round_cls (mro t ck) = true → Writes t fint cim h o e → p ∈ en_props e → ∃ k, does o p k.
Proof using Type.
  intros Hc1 Hrc (k & top & below & as_ & es & rs & Hc & Hf & Em & Hn & Hs & H1 & H2 & H3 & Hp) Hin.
  rewrite Hc in Hc1. injection Hc1 as Hk. rewrite <- Hk in Hrc.
  destruct (round_split _ _ Hrc below top Em) as (_ & _ & Hnu).
  assert (∀ c, c ∈ below → c ∈ mro t (c_key k)) as Hm by (intros c ?; rewrite Em; apply elem_of_app; by left).
  rewrite Hp in Hin. apply elem_of_app in Hin as [Hin|[Hin|Hin]%elem_of_app].
  - destruct (listed_in _ _ _ _ H1 Hin) as (c & r' & Hc' & Hl & Hin'). rewrite elem_of_reverse in Hc'. destruct (listed_in _ _ _ _ Hl Hin') as (a & r'' & Ha & Ho & Hin'').
    destruct Ho as [[_ ->]|(He & v & dv & Hv & Hd & [[_ ->]|(Hne & s & Hs' & ->)])]; [by apply elem_of_nil in Hin''..|].
    apply elem_of_list_singleton in Hin'' as ->. exists (Pub a). apply (does_text o (c_key k) c a v dv s); try done; [by apply Hm|exact (Hnu _ _ Hc' Ha)].
  - destruct (listed_in _ _ _ _ H2 Hin) as (c & r' & Hc' & Hl & Hin'). rewrite elem_of_reverse in Hc'. destruct (listed_in _ _ _ _ Hl Hin') as (a & r'' & Ha & Ho & Hin'').
    destruct Ho as [[_ ->]|(dt & v & s & He & Hv & Hs' & ->)]; [by apply elem_of_nil in Hin''|].
    apply elem_of_list_singleton in Hin'' as ->. exists (Pub a). apply (does_enum o (c_key k) c a v dt s); try done; [by apply Hm|exact (Hnu _ _ Hc' Ha)].
  - destruct (listed_in _ _ _ _ H3 Hin) as (c & r' & Hc' & Hl & Hin'). rewrite elem_of_reverse in Hc'. destruct (listed_in _ _ _ _ Hl Hin') as (a & r'' & Ha & Ho & Hin'').
    destruct Ho as [[_ ->]|(Hm' & [[_ ->]|(x & i & s & Hx & Hi & Hs' & ->)])]; [by apply elem_of_nil in Hin''..|].
    apply elem_of_list_singleton in Hin'' as ->. eexists. apply (does_ref o (c_key k) c a x i s); try done. by apply Hm.
Qed.
Lemma writes_does o o' e p : copy_of o o' → Writes t fint cim h o e → p ∈ en_props e → ∃ k, does o p k.
Proof using HP Hnew Ht.
  intros Hcp Hw Hin. destruct (copy_facts _ _ Hcp) as (id & c0 & _ & _ & _ & Hc1 & _ & _ & _ & _ & Hrc & _). by eapply writes_does_cls.
Qed.

(** *** The result *)
Context (h2 : heap) (HS2 : Step h1 h2) (es : list entry) (Hes : Writes_all t fint cim h d es)
  (HD2 : ∀ id o p k e, assoc id d = Some (VRef o) → e ∈ es → Writes t fint cim h o e → p ∈ en_props e → does o p k → Done h2 o k).
Lemma written id o : assoc id d = Some (VRef o) → ∃ e, e ∈ es ∧ Writes t fint cim h o e.
Proof using Hes.
  intros Hin%assoc_in. apply elem_of_list_lookup in Hin as [i Hi]. eapply Forall2_lookup_l in Hes as (e & He & o2 & Ho2 & Hw); [|done].
  cbn [snd] in Ho2. injection Ho2 as <-. exists e. split; [|done]. by eapply elem_of_list_lookup_2.
Qed.
Lemma attr_written o o' ck c a : copy_of o o' → cls_of h o = Some ck → c ∈ mro t ck → a ∈ c_attrs c → a ≠ u "UUID" →
  match assoc a (c_enums c) with
  | Some _ => Done h2 o (Pub a)
  | None => ∃ v dv, sees t h o a v ∧ assoc a (c_defaults c) = Some dv ∧ (equal fint v dv ∨ Done h2 o (Pub a))
  end.
Proof using HP Hnew Ht Hes HD2.
  intros Hcp Hck Hc Ha Hne. destruct (copy_facts _ _ Hcp) as (id & c0 & Hin & _ & _ & Hc1 & _ & _ & _ & _ & Hrc & _).
  rewrite Hck in Hc1. injection Hc1 as ->.
  destruct (written _ _ Hin) as (e & He & Hw). pose proof Hw as (k & top & below & as_ & es' & rs & Hk & Hf & Em & Hn & Hs & H1 & H2 & H3 & Hp).
  rewrite Hck in Hk. injection Hk as Hk. rewrite Hk in *.
  destruct (round_split _ _ Hrc below top Em) as (Htop & _ & _).
  assert (c ∈ below) as Hb. { pose proof Hc as Hc'. rewrite Em in Hc'. apply elem_of_app in Hc' as [?|Hx]; [done|]. apply elem_of_list_singleton in Hx. subst c. by apply Htop in Ha. }
  rewrite <- elem_of_reverse in Hb. destruct (assoc a (c_enums c)) as [dt|] eqn:Een.
  - destruct (listed_get _ _ _ _ H2 Hb) as (r1 & Hl & Hr1). destruct (listed_get _ _ _ _ Hl Ha) as (r2 & Ho & Hr2).
    destruct Ho as [[? _]|(dt' & v & s & He' & Hv & Hs' & ->)]; [congruence|]. rewrite Een in He'. injection He' as <-.
    eapply (HD2 id o _ _ e); [done|done|done| |by eapply does_enum]. rewrite Hp. apply elem_of_app. right. apply elem_of_app. left.
    apply Hr1, Hr2. by left.
  - destruct (listed_get _ _ _ _ H1 Hb) as (r1 & Hl & Hr1). destruct (listed_get _ _ _ _ Hl Ha) as (r2 & Ho & Hr2).
    destruct Ho as [[? _]|(_ & v & dv & Hv & Hd & [[Heq _]|(Hneq & s & Hs' & ->)])]; [done|by exists v, dv; auto|].
    exists v, dv. split_and!; [done|done|]. right.
    eapply (HD2 id o _ _ e); [done|done|done| |by eapply does_text]. rewrite Hp. apply elem_of_app. left. apply Hr1, Hr2. by left.
Qed.
Lemma ref_written o o' ck c r : copy_of o o' → cls_of h o = Some ck → c ∈ mro t ck → r ∈ c_refs c → r ∉ c_many c →
  sees t h o r VNone ∨ (∃ x, sees t h o r (VRef x)) ∧ Done h2 o (read_slot (lookup_prop t ck) r).
Proof using HP Hnew Ht Hes HD2.
  intros Hcp Hck Hc Ha Hne. destruct (copy_facts _ _ Hcp) as (id & c0 & Hin & _ & _ & Hc1 & _ & _ & _ & _ & Hrc & _).
  rewrite Hck in Hc1. injection Hc1 as ->.
  destruct (written _ _ Hin) as (e & He & Hw). pose proof Hw as (k & top & below & as_ & es' & rs & Hk & Hf & Em & Hn & Hs & H1 & H2 & H3 & Hp).
  rewrite Hck in Hk. injection Hk as Hk. rewrite Hk in *.
  destruct (round_split _ _ Hrc below top Em) as (_ & Htop & _).
  assert (c ∈ below) as Hb. { pose proof Hc as Hc'. rewrite Em in Hc'. apply elem_of_app in Hc' as [?|Hx]; [done|]. apply elem_of_list_singleton in Hx. subst c.
    rewrite Htop in Ha. by apply elem_of_nil in Ha. }
  rewrite <- elem_of_reverse in Hb. destruct (listed_get _ _ _ _ H3 Hb) as (r1 & Hl & Hr1). destruct (listed_get _ _ _ _ Hl Ha) as (r2 & Ho & Hr2).
  destruct Ho as [[? _]|(_ & [[Hv _]|(x & i & s & Hx & Hi & Hs' & ->)])]; [done|by left|]. right. split; [eauto|].
  eapply (HD2 id o _ _ e); [done|done|done| |by eapply does_ref]. rewrite Hp. apply elem_of_app. right. apply elem_of_app. right.
  apply Hr1, Hr2. by left.
Qed.
Lemma final_attrs o o' ck c a v : copy_of o o' → cls_of h o = Some ck → c ∈ mro t ck → a ∈ c_attrs c → sees t h o a v →
  ∃ v', sees t h2 o' a v' ∧ (v' = v ∨ v = VFloat (u "-0.0") ∧ v' = VFloat (u "0.0")).
Proof using HP Hnew Ht Hes HD2 HS2.
  intros Hcp Hck Hc Ha Hv. destruct (copy_facts _ _ Hcp) as (id & c0 & Hin & _ & Hid & Hc1 & Hc2 & Hf & Hn & Hu & Hrc & Hb).
  rewrite Hck in Hc1. injection Hc1 as ->. set (ck := c_key c0) in *.
  assert (cls_of h2 o' = Some ck) as Hcc by (by rewrite (copy_class _ _ _ HS2 Hcp)).
  destruct (decide (a = u "UUID")) as [->|Hne].
  - pose proof (sees_det _ _ _ _ _ _ Hv Hid) as ->. exists (VStr id). split; [|by left]. exists ck. split; [done|].
    rewrite (blank_uuid _ _ _ _ Ht Hn Hu). change (key_of (u "UUID")) with (Pub (u "UUID")).
    rewrite <- (blank_id _ _ _ _ Ht Hn Hu id), <- Hb. fold ck.
    destruct (st_views _ _ HS2 o' (Pub (u "UUID"))) as [E|(o2 & ck2 & Hcp2 & Hck2 & [(w & w' & Hw & _)|(q & p & ? & _)])]; [done| |done].
    exfalso. rewrite (copy_inj _ _ _ Hcp2 Hcp), Hck in Hck2. injection Hck2 as <-.
    destruct Hw as [(c2 & a2 & _ & _ & Hne & [= <-])|(c2 & r & Hc3 & Hr & Hm & Hk)]; [done|].
    destruct (round_ref_ok _ _ Hrc c2 r Hc3 Hr Hm) as [Hpub Hk2]. unfold read_slot in Hk. destruct (lookup_prop t ck r) as [[]|]; try done.
    rewrite Hpub in Hk. injection Hk as <-. by apply (Hk2 c Hc).
  - pose proof (round_attr_ok _ _ Hrc c a Hc Ha Hne) as [Hpl Hdv].
    pose proof (po_attrs _ _ _ _ _ HP id o ck c a v (proj1 (dict_in _ _) Hin) Hck Hc Ha Hne Hv) as Hfit.
    pose proof (sees_plain _ _ _ _ Hck Hpl Hv) as Hvw. pose proof (attr_written _ _ _ _ _ Hcp Hck Hc Ha Hne) as Hw.
    pose proof Hpl as (Hpub & Hl & _).
    assert (∀ v', view h2 o' (Pub a) = Some (OV v') → sees t h2 o' a v') as Hsee.
    { intros v' Hv'. exists ck. split; [done|]. by rewrite Hl, Hpub. }
    assert (Done h2 o (Pub a) → (∀ y, v ≠ VRef y) → view h2 o' (Pub a) = Some (OV v)) as Hdone.
    { intros (o2 & w & w' & Hcp2 & Hw1 & Hw2 & Hw3) Hp. rewrite Hvw in Hw1. injection Hw1 as <-. apply value_copy_plain in Hw2 as ->; [|done].
      by rewrite (copy_fun _ _ _ Hcp Hcp2). }
    destruct (assoc a (c_enums c)) as [dt|].
    + exists v. split; [|by left]. apply Hsee, Hdone; [done|]. by destruct Hfit as (? & -> & _).
    + destruct Hw as (v2 & dv & Hv2 & Hd & Hw). pose proof (sees_det _ _ _ _ _ _ Hv Hv2) as <-.
      destruct Hdv as (dv2 & Hd2 & Hct & Hfz). rewrite Hd in Hd2. injection Hd2 as <-. specialize (Hfit dv Hd).
      destruct (fits_plain _ _ _ Hfit) as (Hp1 & _). destruct Hw as [Heq|Hdn]; [|by exists v; split; [apply Hsee, Hdone|left]].
      destruct (slot_cases _ _ _ _ _ HS2 Hcp Hvw) as [E|(v' & Hvc & E)].
      * rewrite Hb in E. rewrite <- Hpub in E at 2. unfold ck in *. rewrite (blank_default _ _ _ _ Ht Hn Hu id c a dv Hc Ha Hne Hl Hct) in E.
        exists dv. split; [by apply Hsee|]. destruct (fits_equal _ _ _ _ Hfit Hfz Heq) as [->|?]; [by left|by right].
      * apply value_copy_plain in Hvc as ->; [|done]. exists v. split; [by apply Hsee|by left].
Qed.
(** Both kinds of single ends. *)
Lemma final_link o o' ck p k w : copy_of o o' → cls_of h o = Some ck → lookup_prop t ck p = Some k → link_kind k = true → many_kind k = false →
  view h o (Priv p) = Some (OV w) → ∃ w', value_copy w w' ∧ view h2 o' (Priv p) = Some (OV w').
Proof using HP Hnew Ht Hes HD2 HS2.
  intros Hcp Hck Hl Hlk Hmk Hv. destruct (link_single _ _ _ Hl Hlk Hmk) as (c & Hc & Hr & Hm).
  assert (read_slot (lookup_prop t ck) p = Priv p) as Hrs by (unfold read_slot; rewrite Hl; by destruct k).
  assert (sees t h o p w) as Hsw by (exists ck; split; [done|]; rewrite Hl; by destruct k).
  destruct (ref_written _ _ _ _ _ Hcp Hck Hc Hr Hm) as [Hn|[[x Hx] HD]].
  - pose proof (sees_det _ _ _ _ _ _ Hsw Hn) as ->. exists VNone. split; [by constructor|].
    destruct (slot_cases _ _ _ _ _ HS2 Hcp Hv) as [->|(v' & Hvc & E)].
    + rewrite <- Hrs. by eapply blank_slot.
    + by apply value_copy_plain in Hvc as ->.
  - rewrite Hrs in HD. destruct HD as (o2 & v & v' & Hcp2 & Hv2 & Hvc & E). rewrite Hv in Hv2. injection Hv2 as <-. exists v'.
    split; [done|]. by rewrite (copy_fun _ _ _ Hcp Hcp2).
Qed.
Lemma copy_val_cls w w' : value_copy w w' → w' ≠ VNone → val_cls h2 w' = val_cls h w.
Proof using HP Hnew Ht HS2. intros [v Hn|x x' Hx|x Hx] Hne; [by destruct v; try done; edestruct Hn|by apply copy_class|done]. Qed.
Lemma final_refs o o' ck c p v : copy_of o o' → cls_of h o = Some ck → c ∈ mro t ck → p ∈ c_refs c → p ∉ c_many c →
  sees t h o p v → ∃ v', value_copy v v' ∧ sees t h2 o' p v'.
Proof using HP Hnew Ht Hes HD2 HS2.
  intros Hcp Hck Hc Hr Hm Hv. destruct (copy_facts _ _ Hcp) as (id & c0 & Hin & _ & Hid & Hc1 & Hc2 & Hf & Hn & Hu & Hrc & Hb).
  rewrite Hck in Hc1. injection Hc1 as ->. set (ck := c_key c0) in *.
  assert (cls_of h2 o' = Some ck) as Hcc by (by rewrite (copy_class _ _ _ HS2 Hcp)).
  destruct (round_ref_ok _ _ Hrc c p Hc Hr Hm) as [Hpub Hk].
  destruct (ref_written _ _ _ _ _ Hcp Hck Hc Hr Hm) as [Hn0|[[x Hx] HD]].
  - pose proof (sees_det _ _ _ _ _ _ Hv Hn0) as ->. exists VNone. split; [by constructor|]. exists ck. split; [done|].
    pose proof (blank_slot _ _ _ _ _ Hcp Hck Hc Hr Hm) as Hbl. unfold read_slot in Hbl.
    destruct Hv as (ck2 & Hck2 & Hv). rewrite Hck in Hck2. injection Hck2 as <-.
    assert (∀ k, view h o k = Some (OV VNone) → view h1 o' k = Some (OV VNone) → view h2 o' k = Some (OV VNone)) as Hsame.
    { intros k Hk1 Hk2. destruct (slot_cases _ _ _ _ _ HS2 Hcp Hk1) as [->|(v' & Hvc & E)]; [done|]. by apply value_copy_plain in Hvc as ->. }
    destruct (lookup_prop t ck p) as [[q|q|q|q| |q|p0 cl]|] eqn:Ek; try done; try by apply Hsame.
    destruct Hv as (w & Hw & Hcl). destruct Hk as [q Hq].
    assert (view h o (Priv p0) = Some (OV w)) as Hvw.
    { pose proof (so_slots _ _ (po_sound _ _ _ _ _ HP) o p0 (POneMany q)) as Hsl. unfold pkind in Hsl. rewrite Hck in Hsl. destruct (Hsl Hq) as [z Hz].
      destruct (lk_single _ _ (proj2 (so_consistent _ _ (po_sound _ _ _ _ _ HP))) o p0 q z) as [->|(? & ? & -> & _)]; [unfold pkind; by rewrite Hck|done| |].
      - apply view_val in Hz as Hz'. congruence.
      - apply view_val in Hz as Hz'. congruence. }
    destruct (final_link _ _ _ _ _ _ Hcp Hck Hq eq_refl eq_refl Hvw) as (w' & Hvc & Hw').
    exists w'. split; [by apply view_val|]. right. split; [|done]. intros Hcl'.
    destruct (decide (w' = VNone)) as [->|Hnn]; [done|]. rewrite (copy_val_cls _ _ Hvc Hnn) in Hcl'.
    destruct Hcl as [[_ <-]|[Hcl _]]; [|done]. by apply Hnn, (value_copy_plain _ _ Hvc).
  - pose proof (sees_det _ _ _ _ _ _ Hv Hx) as ->. destruct HD as (o2 & v & v' & Hcp2 & Hv2 & Hvc & E).
    rewrite <- (copy_fun _ _ _ Hcp Hcp2) in E. rewrite (sees_slot _ _ _ _ Hck Hx) in Hv2. injection Hv2 as <-.
    exists v'. split; [done|]. exists ck. split; [done|]. unfold read_slot in E.
    destruct Hv as (ck2 & Hck2 & Hv). rewrite Hck in Hck2. injection Hck2 as <-.
    destruct (lookup_prop t ck p) as [[q|q|q|q| |q|p0 cl]|] eqn:Ek; try done.
    exists v'. split; [by apply view_val|]. destruct Hv as (w & _ & [[Hcl Hw]|[_ Hw]]); [|done]. subst w.
    inversion Hvc as [? Hr2|? x' Hcx|? Hnx]; subst; [by destruct (Hr2 _ eq_refl)| |by right].
    left. split; [|done]. by rewrite (copy_val_cls _ _ Hvc).
Qed.
Lemma final_members o o' ck q p ys : copy_of o o' → cls_of h o = Some ck → lookup_prop t ck q = Some (PManyOne p) →
  view h o (Priv q) = Some (OL ys) →
  ∃ ys', view h2 o' (Priv q) = Some (OL ys') ∧ NoDup ys' ∧ ∀ y', y' ∈ ys' ↔ ∃ x x', VRef x ∈ ys ∧ copy_of x x' ∧ y' = VRef x'.
Proof using HP Hnew Ht Hes HD2 HS2 Hs1.
  intros Hcp Hck Hl Hv.
  assert (pkind t h2 o' q = Some (PManyOne p)) as HK2 by (unfold pkind; by rewrite (copy_class _ _ _ HS2 Hcp), Hck).
  assert (pkind t h o q = Some (PManyOne p)) as HK by (unfold pkind; by rewrite Hck).
  pose proof (proj2 (so_consistent _ _ (po_sound _ _ _ _ _ HP))) as HL. pose proof (proj2 (so_consistent _ _ (st_sound _ _ HS2))) as HL2.
  pose proof (proj2 (so_consistent _ _ Hs1)) as HL1.
  pose proof (so_slots _ _ (st_sound _ _ HS2) _ _ _ HK2) as [z Hz]. destruct (lk_coll _ _ HL2 _ _ _ _ HK2 Hz) as (ys' & -> & Hnd & Hmem).
  exists ys'. split_and!; [done|done|]. intros y'. split.
  - intros (x2 & p2 & -> & (Hk2 & p' & Hk3 & Hres) & Hx2)%Hmem.
    assert (∀ z r, pkind t h1 z r = pkind t h2 z r) as Hpk by (intros z r; unfold pkind; by rewrite (st_classes _ _ HS2)).
    destruct (st_views _ _ HS2 x2 (Priv p2)) as [E|(x & tk & Hcx & Htk & Hcase)].
    + exfalso. rewrite Hx2 in E. symmetry in E. destruct (copy_facts _ _ Hcp) as (id & c0 & _ & _ & _ & Hc1 & _ & _ & Hn & Hu & _ & Hb).
      rewrite Hck in Hc1. injection Hc1 as ->. destruct (tables_blank _ _ _ _ Ht Hn Hu) as [Hbl _]. specialize (Hbl id q _ Hl eq_refl). cbn [many_kind] in Hbl.
      rewrite <- Hb in Hbl. rewrite <- Hpk in Hk2. destruct (lk_single _ _ HL1 _ _ _ _ Hk2 E) as [?|(o3 & ys3 & [= <-] & _ & E3 & Hin)]; [done|].
      rewrite Hbl in E3. injection E3 as <-. by apply elem_of_nil in Hin.
    + assert (lookup_prop t tk p2 = Some (POneMany q)) as Hlk.
      { unfold pkind in Hk2. by rewrite (copy_class _ _ _ HS2 Hcx), Htk in Hk2. }
      destruct Hcase as [(v & v' & _ & Hvx & Hvc & E)|(q2 & p3 & [= <-] & ?)]; [|congruence]. rewrite Hx2 in E. injection E as <-.
      apply value_copy_ref in Hvc as (o3 & -> & Hc3). rewrite (copy_inj _ _ _ Hc3 Hcp) in *.
      assert (pkind t h x p2 = Some (POneMany q)) as HKx by (unfold pkind; by rewrite Htk).
      destruct (lk_single _ _ HL _ _ _ _ HKx Hvx) as [?|(o4 & ys4 & [= <-] & _ & E4 & Hin)]; [done|]. rewrite Hv in E4. injection E4 as <-. eauto.
  - intros (x & x' & Hin & Hcx & ->). destruct (lk_coll _ _ HL _ _ _ _ HK Hv) as (ys0 & [= <-] & _ & Hmem0).
    destruct (Hmem0 _ Hin) as (x0 & p0 & [= <-] & (Hk0 & _) & Hx0). destruct (copy_facts _ _ Hcx) as (_ & cx & _ & _ & _ & Htk & _).
    assert (lookup_prop t (c_key cx) p0 = Some (POneMany q)) as Hl0 by (unfold pkind in Hk0; by rewrite Htk in Hk0).
    destruct (final_link _ _ _ _ _ _ Hcx Htk Hl0 eq_refl eq_refl Hx0) as (w' & Hvc & Hw').
    assert (w' = VRef o') as -> by (eapply value_copy_fun; [done|by constructor]).
    assert (pkind t h2 x' p0 = Some (POneMany q)) as Hk2 by (unfold pkind; by rewrite (copy_class _ _ _ HS2 Hcx), Htk).
    destruct (lk_single _ _ HL2 _ _ _ _ Hk2 Hw') as [?|(o4 & ys4 & [= <-] & _ & E4 & Hin4)]; [done|]. rewrite Hz in E4. by injection E4 as <-.
Qed.
Lemma writable_val o o' ck k : copy_of o o' → cls_of h o = Some ck → writable ck k → ∃ v, view h1 o' k = Some (OV v).
Proof using HP Hnew Ht.
  intros Hcp Hck Hw. destruct (copy_facts _ _ Hcp) as (id & c0 & _ & _ & _ & Hc1 & _ & _ & Hn & Hu & Hrc & Hb).
  rewrite Hck in Hc1. injection Hc1 as ->. destruct Hw as [(c & a & Hc & Ha & Hne & ->)|(c & r & Hc & Hr & Hm & ->)].
  - destruct (tables_blank _ _ _ _ Ht Hn Hu) as [_ Hbp]. pose proof (round_attr_ok _ _ Hrc c a Hc Ha Hne) as [(Hpub & Hl & _) _].
    destruct (Hbp id a c Hc Ha Hl) as (w & Hw & _). rewrite Hpub in Hw. exists w. by rewrite Hb.
  - exists VNone. by eapply blank_slot.
Qed.
Lemma final_lost : loses_collections t h d h2 d'.
Proof using HP Hnew Ht HS2.
  intros o o' ck c q Hcp Hck Hc Hq Hpar Hno. destruct (copy_facts _ _ Hcp) as (id & c0 & _ & _ & _ & Hc1 & _ & _ & Hn & Hu & Hrc & Hb).
  rewrite Hck in Hc1. injection Hc1 as ->. destruct (blank_many _ _ _ _ Ht Hn Hu id c q Hc Hq Hpar) as [Hal Hbl].
  rewrite <- Hb in Hbl. pose proof (many_key _ _ _ _ Ht (mro_sub _ _ _ Hc) Hq) as Hpub.
  assert (match lookup_prop t (c_key c0) q with None => key_of q | Some _ => Priv q end = read_slot (lookup_prop t (c_key c0)) q) as ->.
  { unfold read_slot. by destruct (lookup_prop t (c_key c0) q) as [[]|]. }
  destruct (st_views _ _ HS2 o' (read_slot (lookup_prop t (c_key c0)) q)) as [->|(o2 & ck & Hcp2 & Hck2 & Hcase)]; [done|].
  rewrite (copy_inj _ _ _ Hcp2 Hcp), Hck in Hck2. injection Hck2 as <-. exfalso. destruct Hcase as [(v & v' & Hw & _)|(q2 & p & Hk & Hl2)].
  - destruct (writable_val _ _ _ _ Hcp Hck Hw) as [w Hw']. congruence.
  - unfold read_slot in Hk. destruct (lookup_prop t (c_key c0) q) as [[]|] eqn:Ek; try done; try (injection Hk as ->; by rewrite Ek in Hl2).
    + injection Hk as ->. by eapply Hno.
    + by rewrite Hpub in Hk.
Qed.
Lemma final_copies : Copies t h d h2 d'.
Proof using HP Hnew Ht Hes HD2 HS2 Hs1 Hkeys.
  split; [done| |by intros; eapply copy_class|exact final_attrs|exact final_refs|exact final_members].
  intros id o Hin. destruct (copy_intro _ _ Hin) as (o' & ? & _). eauto.
Qed.
End round.
