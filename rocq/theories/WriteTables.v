(** The names in the class tables can be used as XML names. *)
From Coq Require Import String ZArith Lia.
From stdpp Require Import prelude gmap.
From Verif Require Import PyStr PyHeap Schema Assoc AssocSpec Reader ReaderSpec XmlWriter XmlSpec XmlCalls XmlParseFacts XmlDocFacts.
From Verif Require Import WriteSpec CimWriter WriteFacts WriteDocFacts Names Tables TableSpec TableFacts.

(** Letters, digits, the underscore and the hyphen (one name in CIM14/ENTSOE/Dynamics/Thing.py:84 has one). *)
Definition id_start (c : N) : bool := ((65 <=? c) && (c <=? 90) || (97 <=? c) && (c <=? 122) || (c =? 95))%N.
Definition id_char (c : N) : bool := id_start c || ((48 <=? c) && (c <=? 57) || (c =? 45))%N.
Definition ident (s : pystr) : bool := match s with [] => false | c :: r => id_start c && forallb id_char r end.
Lemma id_start_ok c : id_start c = true → name_start c = true.
Proof.
  unfold id_start, name_start. rewrite !orb_true_iff, !andb_true_iff. intros [[H|H]|H]; tauto.
Qed.
Lemma id_char_ok c : id_char c = true → name_char c = true ∧ (c =? 58)%N = false.
Proof.
  intros H. split.
  - unfold id_char in H. apply orb_true_iff in H as [H|H]; unfold name_char; [by rewrite id_start_ok|]. apply orb_true_iff in H as [H|H]; rewrite H; by rewrite ?orb_true_r.
  - apply N.eqb_neq. intros ->. done.
Qed.
Lemma ident_chars s c : ident s = true → c ∈ s → id_char c = true.
Proof.
  destruct s as [|d r]; [done|]. cbn [ident]. rewrite andb_true_iff, forallb_forall. intros [Hd Hr] [->|Hin%elem_of_list_In]%elem_of_cons; [|by apply Hr].
  unfold id_char. by rewrite Hd.
Qed.
Lemma good_dotted a b : ident a = true → forallb id_char b = true → good_name (a ++ u "." ++ b) = true.
Proof.
  intros Ha Hb. unfold good_name. apply andb_true_iff.
  assert (∀ c, c ∈ a ++ u "." ++ b → name_char c = true ∧ (c =? 58)%N = false) as Hc.
  { intros c. rewrite !elem_of_app. intros [Hin|[->%elem_of_list_singleton|Hin]].
    - by apply id_char_ok, (ident_chars a).
    - done.
    - apply id_char_ok. rewrite forallb_forall in Hb. by apply Hb, elem_of_list_In. }
  split.
  - destruct a as [|c a]; [done|]. cbn [ident] in Ha. apply andb_true_iff in Ha as [Hs Ha]. cbn [app is_name]. apply andb_true_iff.
    split; [by apply id_start_ok|]. apply forallb_forall. intros x Hx%elem_of_list_In. apply Hc. by right.
  - unfold no_colon. apply forallb_forall. intros x Hx%elem_of_list_In. apply Hc in Hx as [_ ->]. done.
Qed.
Lemma good_ident a : ident a = true → good_name a = true.
Proof.
  intros Ha. unfold good_name. apply andb_true_iff. split.
  - destruct a as [|c a]; [done|]. cbn [ident is_name] in *. apply andb_true_iff in Ha as [Hs Ha]. apply andb_true_iff. split; [by apply id_start_ok|].
    rewrite forallb_forall in Ha |- *. intros x Hx. apply (id_char_ok x), Ha, Hx.
  - apply forallb_forall. intros x Hx%elem_of_list_In. apply (ident_chars _ _ Ha), id_char_ok in Hx as [_ ->]. done.
Qed.
Definition names_b (c : cls) : bool :=
  ident (c_name c) && forallb (forallb id_char) (c_attrs c) && forallb (forallb id_char) (c_refs c).
Definition names_all (t : schema) (_ : list (name * name)) : bool := forallb names_b t.
Lemma names_all_true : all_tables names_all = true.
Proof. vm_compute. reflexivity. Qed.
Lemma names_in t m c : (t, m) ∈ tables → c ∈ t → names_b c = true.
Proof. intros Ht Hc. exact (all_rows_ok _ _ _ (all_tables_ok _ _ _ names_all_true Ht) Hc). Qed.

Lemma listed_in {A B} (P : A → list B → Prop) l r y : listed P l r → y ∈ r → ∃ x r', x ∈ l ∧ P x r' ∧ y ∈ r'.
Proof.
  induction 1 as [|x l r r' Hx Hl IH]; [by intros ?%elem_of_nil|]. intros [Hy|Hy]%elem_of_app.
  - exists x, r. split; [left|done].
  - destruct (IH Hy) as (x' & r'' & ? & ? & ?). exists x', r''. split; [by right|done].
Qed.
Lemma writes_names t m fint cim h o e : (t, m) ∈ tables → Writes t fint cim h o e → names_ok e.
Proof.
  intros Ht (k & top & below & as_ & es & rs & Hc & Hf & Em & Hn & Hs & H1 & H2 & H3 & Hp).
  assert (∀ c, c ∈ reverse below → names_b c = true) as Hb.
  { intros c Hin. apply (names_in _ _ _ Ht), (mro_sub _ (c_key k)). rewrite Em, elem_of_app. left. by apply elem_of_reverse. }
  assert (∀ c a, c ∈ reverse below → a ∈ c_attrs c ∨ a ∈ c_refs c → good_name (ptag c a) = true) as Hg.
  { intros c a Hin Ha. specialize (Hb c Hin). unfold names_b in Hb. rewrite !andb_true_iff, !forallb_forall in Hb.
    destruct Hb as [[Hn1 Hb1] Hb2]. apply good_dotted; [done|]. destruct Ha as [Ha|Ha]; apply elem_of_list_In in Ha; auto. }
  split.
  - rewrite Hn. apply good_ident. assert (k ∈ t) as Hk.
    { apply (mro_sub _ (c_key k)). unfold mro. destruct t as [|c' t']; [done|]. cbn [length mro_fuel]. rewrite Hf. left. }
    pose proof (names_in _ _ _ Ht Hk) as Hb'. unfold names_b in Hb'. rewrite !andb_true_iff in Hb'. tauto.
  - intros p Hin. rewrite Hp in Hin. apply elem_of_app in Hin as [Hin|[Hin|Hin]%elem_of_app].
    + destruct (listed_in _ _ _ _ H1 Hin) as (c & r' & Hc' & Hl & Hin'). destruct (listed_in _ _ _ _ Hl Hin') as (a & r'' & Ha & Ho & Hin'').
      destruct Ho as [[_ ->]|(_ & v & d & _ & _ & [[_ ->]|(_ & s & _ & ->)])]; [by apply elem_of_nil in Hin''..|].
      apply elem_of_list_singleton in Hin'' as ->. cbn [pelem_tag]. auto.
    + destruct (listed_in _ _ _ _ H2 Hin) as (c & r' & Hc' & Hl & Hin'). destruct (listed_in _ _ _ _ Hl Hin') as (a & r'' & Ha & Ho & Hin'').
      destruct Ho as [[_ ->]|(dt & v & s & _ & _ & _ & ->)]; [by apply elem_of_nil in Hin''|].
      apply elem_of_list_singleton in Hin'' as ->. cbn [pelem_tag]. auto.
    + destruct (listed_in _ _ _ _ H3 Hin) as (c & r' & Hc' & Hl & Hin'). destruct (listed_in _ _ _ _ Hl Hin') as (a & r'' & Ha & Ho & Hin'').
      destruct Ho as [[_ ->]|(_ & [[_ ->]|(tt' & i & s & _ & _ & _ & ->)])]; [by apply elem_of_nil in Hin''..|].
      apply elem_of_list_singleton in Hin'' as ->. cbn [pelem_tag]. auto.
Qed.
Lemma writes_all_names t m fint cim h d es : (t, m) ∈ tables → Writes_all t fint cim h d es → ∀ e, e ∈ es → names_ok e.
Proof.
  intros Ht Hw e He. apply elem_of_list_lookup in He as [i Hi]. eapply Forall2_lookup_r in Hw as (kv & _ & o & _ & Hw); [|done]. by eapply writes_names.
Qed.
