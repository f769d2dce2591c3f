(** Checks of the class tables that the reader's properties rest on. *)
From Coq Require Import String.
From stdpp Require Import prelude gmap.
From Verif Require Import PyStr PyHeap Schema Assoc AssocSpec HeapFacts LinksFacts AssocFacts CtorFacts HistorySpec
  HistoryFacts Names TabCIM14 TabCIM15 TabProfiles Tables TableSpec TableFacts BlankFacts Reader ReaderSpec ReaderFacts
  RegionFacts FrameFacts CreateFacts.

Definition plain_val (v : val) : bool := match v with VRef _ | VList _ => false | _ => true end.
Definition many_kind (k : prop) : bool := match k with PManyOne _ | PManyMany _ => true | _ => false end.
Definition reader_row (c : cls) : bool :=
  forallb (λ '(_, v), plain_val v) (c_params c) &&
  forallb (λ '(p, k),
    match other_name k with Some q => negb (str_eqb q (u "UUID")) | None => true end &&
    (negb (link_kind k) ||
     (existsb (str_eqb p) (c_refs c) &&
      if many_kind k then existsb (str_eqb p) (c_many c) && existsb (λ q, str_eqb p q.1) (c_params c)
      else negb (existsb (str_eqb p) (c_many c))))) (c_props c).
Definition reader_all (t : schema) (_ : list (name * name)) : bool := forallb reader_row t.
Lemma reader_all_true : all_tables reader_all = true.
Proof. vm_compute. reflexivity. Qed.

Lemma reader_row_ok t pm c : (t, pm) ∈ tables → c ∈ t → reader_row c = true.
Proof. intros Ht Hc. pose proof (all_tables_ok _ _ _ reader_all_true Ht) as Hb. by apply (all_rows_ok _ _ _ Hb). Qed.

Lemma tables_plain t pm : (t, pm) ∈ tables → ∀ ck, plain_defaults (mro t ck).
Proof.
  intros Ht ck c p v Hc%mro_sub Hp. pose proof (reader_row_ok t pm c Ht Hc) as Hb.
  apply andb_true_iff in Hb as [Hb _]. apply (all_rows_ok _ _ _ Hb) in Hp. simpl in Hp. by destruct v.
Qed.
Lemma tables_uuid t pm : (t, pm) ∈ tables →
  ∀ c p k q, lookup_prop t c p = Some k → other_name k = Some q → q ≠ u "UUID".
Proof.
  intros Ht c p k q (d & Hd%mro_sub & Hp)%lookup_in_props Hq ->. pose proof (reader_row_ok t pm d Ht Hd) as Hb.
  apply andb_true_iff in Hb as [_ Hb]. apply (all_rows_ok _ _ _ Hb) in Hp. cbv beta iota in Hp. rewrite Hq in Hp.
  by rewrite str_eqb_refl in Hp.
Qed.

(** Links of new objects are there and empty, and their attributes hold plain
    values. *)
Definition blank_links (S : schema) (ck : name) : Prop := ∀ id p k, lookup_prop S ck p = Some k → link_kind k = true →
  bview S ck id (Priv p) = Some (if many_kind k then OL [] else OV VNone).
Definition blank_plain (S : schema) (ck : name) : Prop := ∀ id a c, c ∈ mro S ck → a ∈ c_attrs c →
  lookup_prop S ck a = None → ∃ v, bview S ck id (key_of a) = Some (OV v) ∧ plain_val v = true.

Lemma bview_map S ck id ws k b : blank_new S ck [] (uuid_kw id) = Some (ws ++ [(Pub (u "UUID"), BV (VStr id))]) →
  write_map ws !! k = Some b → key_eqb k (Pub (u "UUID")) = false → bview S ck id k = Some (bov b).
Proof.
  intros E Hm Hk. unfold bview. rewrite E, last_write_app, (last_write_map _ _ _ Hm). cbn [last_write].
  rewrite decide_False; [done|]. intros ->. by rewrite (proj2 (key_eqb_eq _ _) eq_refl) in Hk.
Qed.
Lemma blank_links_ok S ck ws : (∀ c, c ∈ mro S ck → reader_row c = true) →
  (∀ id, blank_new S ck [] (uuid_kw id) = Some (ws ++ [(Pub (u "UUID"), BV (VStr id))])) →
  blank_check (mro S ck) ws = true → blank_links S ck.
Proof.
  intros Hrow Hn Hk id p k Hp Hl. pose proof Hp as (c & Hc & Hin)%lookup_in_props.
  pose proof (Hrow c Hc) as Hb. apply andb_true_iff in Hb as [_ Hb]. apply (all_rows_ok _ _ _ Hb) in Hin.
  cbv beta iota in Hin. rewrite Hl in Hin. cbn [negb orb] in Hin.
  apply andb_true_iff in Hin as [_ [Hr%BlankFacts.existsb_str Hm]%andb_true_iff].
  assert (read_slot (lookup_in (mro S ck)) p = Priv p) as Hrs.
  { unfold read_slot. unfold lookup_prop in Hp. rewrite Hp. by destruct k. }
  unfold blank_check in Hk. apply andb_true_iff in Hk as [_ Hk]. apply (all_rows_ok _ _ _ Hk) in Hc.
  apply andb_true_iff in Hc as [[_ Hk1]%andb_true_iff Hk2].
  destruct (many_kind k) eqn:Emk.
  - apply andb_true_iff in Hm as [Hm%BlankFacts.existsb_str Hq]. apply (all_rows_ok _ _ _ Hk2) in Hm. rewrite Hq in Hm.
    cbn [negb orb] in Hm. apply andb_true_iff in Hm as [_ Hm]. rewrite Hrs in Hm. unfold bval_nil in Hm.
    destruct (write_map ws !! Priv p) as [[|]|] eqn:Em; try done. by apply (bview_map _ _ _ _ _ _ (Hn id) Em).
  - apply negb_true_iff in Hm. apply (all_rows_ok _ _ _ Hk1) in Hr. rewrite Hm in Hr. cbn [orb] in Hr.
    apply andb_true_iff in Hr as [_ Hr]. rewrite Hrs in Hr. unfold bval_is in Hr.
    destruct (write_map ws !! Priv p) as [[w|]|] eqn:Em; try done.
    apply andb_true_iff in Hr as [->%bool_decide_eq_true _]. by apply (bview_map _ _ _ _ _ _ (Hn id) Em).
Qed.
Lemma ctor_default_in cs a d : ctor_default cs a = Some d → ∃ c, c ∈ cs ∧ (a, d) ∈ c_params c.
Proof.
  induction cs as [|c cs IH]; cbn [ctor_default]; [done|]. destruct (assoc a (c_params c)) eqn:E.
  - intros [= <-]. exists c. split; [left|]. by apply assoc_in.
  - intros (c' & ? & ?)%IH. exists c'. split; [by right|done].
Qed.
Lemma blank_plain_ok S ck ws : (∀ c, c ∈ mro S ck → reader_row c = true) →
  (∀ id, blank_new S ck [] (uuid_kw id) = Some (ws ++ [(Pub (u "UUID"), BV (VStr id))])) →
  blank_check (mro S ck) ws = true → blank_plain S ck.
Proof.
  intros Hrow Hn Hk id a c Hc Ha Hp. destruct (decide (a = u "UUID")) as [->|Hne].
  { exists (VStr id). split; [|done]. unfold bview. rewrite Hn, last_write_app. cbn [last_write].
    by rewrite decide_True. }
  unfold blank_check in Hk. apply andb_true_iff in Hk as [_ Hk]. apply (all_rows_ok _ _ _ Hk) in Hc.
  apply andb_true_iff in Hc as [[Hk1 _]%andb_true_iff _].
  apply (all_rows_ok _ _ _ Hk1) in Ha. apply orb_true_iff in Ha as [->%str_eqb_eq|Ha]; [done|].
  destruct (ctor_default (mro S ck) a) as [d|] eqn:Ed; [|done].
  apply andb_true_iff in Ha as [[_ Ha2%negb_true_iff]%andb_true_iff Ha3].
  assert (read_slot (lookup_in (mro S ck)) a = key_of a) as Hrs.
  { unfold read_slot. unfold lookup_prop in Hp. by rewrite Hp. }
  rewrite Hrs in Ha2, Ha3. unfold bval_is in Ha3. destruct (write_map ws !! key_of a) as [[w|]|] eqn:Em; try done.
  apply andb_true_iff in Ha3 as [->%bool_decide_eq_true _].
  exists d. split; [by apply (bview_map _ _ _ _ _ _ (Hn id) Em)|].
  apply ctor_default_in in Ed as (c' & Hc' & Hin). specialize (Hrow c' Hc').
  apply andb_true_iff in Hrow as [Hrow _]. by apply (all_rows_ok _ _ _ Hrow) in Hin.
Qed.
Lemma tables_blank t pm tag k : (t, pm) ∈ tables → assoc tag pm = Some k → k ∉ unconstructible →
  blank_links t k ∧ blank_plain t k.
Proof.
  intros Ht Ha Hu. apply assoc_in in Ha. destruct (map_class t pm tag k Ht Ha) as (c & Hc & _).
  pose proof (blank_one_ok t pm k c Ht Hc) as Hb. rewrite decide_False in Hb by done. destruct Hb as (ws & Hb1 & Hb2).
  assert (∀ id, blank_new t k [] (uuid_kw id) = Some (ws ++ [(Pub (u "UUID"), BV (VStr id))])) as Hn.
  { intros id. unfold blank_new. rewrite Hc. by apply blank_uuid_chain. }
  assert (∀ c, c ∈ mro t k → reader_row c = true) as Hrow.
  { intros c' Hc'%mro_sub. by eapply reader_row_ok. }
  split; [by eapply blank_links_ok|by eapply blank_plain_ok].
Qed.
Lemma tables_raises t pm tag k f h id : (t, pm) ∈ tables → assoc tag pm = Some k → k ∈ unconstructible → Wf h →
  ∃ h', construct t (S f) k [] (uuid_kw id) h = (inr TypeError, h').
Proof.
  intros Ht Ha Hu Hwf. apply assoc_in in Ha. destruct (map_class t pm tag k Ht Ha) as (c & Hc & _).
  destruct (new_raises t pm k c f h id Ht Hc Hu Hwf) as (h' & ? & _). eauto.
Qed.
