(** Checks of the class tables that the round trip rests on. *)
From Coq Require Import String ZArith.
From stdpp Require Import prelude gmap.
From Verif Require Import PyStr PyHeap Schema Assoc AssocSpec HeapFacts LinksFacts AssocFacts CtorFacts HistorySpec
  HistoryFacts Names TabCIM14 TabCIM15 TabProfiles Tables TableSpec TableFacts BlankFacts Reader ReaderSpec ReaderFacts
  RegionFacts FrameFacts CreateFacts ReaderTabs XmlSpec XmlCalls WriteTables.

Definition falsy_val (v : val) : bool :=
  match v with
  | VBool b => negb b
  | VInt z => Z.eqb z 0
  | VFloat r => str_eqb r (u "0.0")
  | VStr s => str_eqb s []
  | _ => false
  end.
Definition pub_name (a : name) : bool := match a with 95%N :: _ => false | _ => true end.
Lemma pub_name_ok a : pub_name a = true → key_of a = Pub a.
Proof. unfold pub_name, key_of. repeat case_match; done. Qed.
Definition same_falsy (a b : val) : bool := falsy_val a && bool_decide (a = b).

Definition round_attr (cs : list cls) (c : cls) (a : name) : bool :=
  str_eqb a (u "UUID") ||
  pub_name a && match lookup_in cs a with None => true | Some _ => false end &&
  match assoc a (c_enums c) with
  | Some dt => forallb id_char dt
  | None =>
      match assoc a (c_defaults c), ctor_default cs a with
      | Some v, Some w => same_falsy v w
      | _, _ => false
      end
  end.
Definition round_ref (cs : list cls) (attrs : list name) (c : cls) (r : name) : bool :=
  existsb (str_eqb r) (c_many c) ||
  pub_name r &&
  match lookup_in cs r with
  | None => negb (existsb (str_eqb r) attrs)
  | Some (POneMany _) | Some (POneOne _) | Some PPrivate => true
  | Some (PAlias p _) => match lookup_in cs p with Some (POneMany _) => true | _ => false end
  | _ => false
  end.
Definition round_cls (cs : list cls) : bool :=
  let attrs := flat_map c_attrs cs in
  forallb (λ c, forallb (round_attr cs c) (c_attrs c) && forallb (round_ref cs attrs c) (c_refs c)) cs &&
  match last cs with
  | Some c => forallb (str_eqb (u "UUID")) (c_attrs c) && match c_refs c with [] => true | _ => false end
  | None => false
  end &&
  forallb (λ c, forallb (λ a, negb (str_eqb a (u "UUID"))) (c_attrs c)) (take (pred (length cs)) cs).
Definition round_one (n : nat) (m : gmap name cls) (k : name) : bool :=
  existsb (str_eqb k) unconstructible || round_cls (mro_map n m k).
Definition round_all (t : schema) (_ : list (name * name)) : bool :=
  let m := cmap t in
  let n := length t in
  forallb (λ c, round_one n m (c_key c)) t.
Lemma round_all_true : all_tables round_all = true.
Proof. vm_compute. reflexivity. Qed.
Lemma round_ok t pm k c : (t, pm) ∈ tables → find_cls t k = Some c → k ∉ unconstructible → round_cls (mro t k) = true.
Proof.
  intros Ht Hc Hu. pose proof (all_tables_ok _ _ _ round_all_true Ht) as H. unfold round_all in H.
  destruct (find_cls_in _ _ _ Hc) as [Hin <-]. apply (all_rows_ok _ _ _ H) in Hin. unfold round_one in Hin.
  apply orb_true_iff in Hin as [?%BlankFacts.existsb_str|Hin]; [done|]. by rewrite mro_map_mro in Hin.
Qed.

(** Names of collections do not begin with an underscore. *)
Definition many_pub (t : schema) (_ : list (name * name)) : bool := forallb (λ c, forallb pub_name (c_many c)) t.
Lemma many_pub_true : all_tables many_pub = true.
Proof. vm_compute. reflexivity. Qed.
Lemma many_key t pm c q : (t, pm) ∈ tables → c ∈ t → q ∈ c_many c → key_of q = Pub q.
Proof.
  intros Ht Hc Hq. pose proof (all_tables_ok _ _ _ many_pub_true Ht) as H. apply (all_rows_ok _ _ _ H) in Hc.
  apply (all_rows_ok _ _ _ Hc) in Hq. by apply pub_name_ok.
Qed.

Section facts.
Context (t : schema) (k : name) (Hr : round_cls (mro t k) = true).
Lemma round_rows c : c ∈ mro t k → (∀ a, a ∈ c_attrs c → round_attr (mro t k) c a = true) ∧
  ∀ r, r ∈ c_refs c → round_ref (mro t k) (flat_map c_attrs (mro t k)) c r = true.
Proof using Hr.
  intros Hc. unfold round_cls in Hr. apply andb_true_iff in Hr as [[H _]%andb_true_iff _].
  apply (all_rows_ok _ _ _ H) in Hc. apply andb_true_iff in Hc as [H1 H2].
  split; intros x Hx; [by apply (all_rows_ok _ _ _ H1)|by apply (all_rows_ok _ _ _ H2)].
Qed.
Lemma round_split below top : mro t k = below ++ [top] →
  (∀ a, a ∈ c_attrs top → a = u "UUID") ∧ c_refs top = [] ∧ ∀ c a, c ∈ below → a ∈ c_attrs c → a ≠ u "UUID".
Proof using Hr.
  intros E. unfold round_cls in Hr. rewrite E in Hr. apply andb_true_iff in Hr as [[_ H1]%andb_true_iff H2].
  rewrite last_snoc in H1. apply andb_true_iff in H1 as [H1 H3].
  rewrite app_length, Nat.add_comm in H2. cbn [length pred Nat.add] in H2. rewrite take_app in H2. split_and!.
  - intros a Ha. apply (all_rows_ok _ _ _ H1) in Ha. symmetry. by apply str_eqb_eq.
  - by destruct (c_refs top).
  - intros c a Hc Ha ->. apply (all_rows_ok _ _ _ H2) in Hc. apply (all_rows_ok _ _ _ Hc) in Ha.
    by rewrite str_eqb_refl in Ha.
Qed.
Lemma round_attr_ok c a : c ∈ mro t k → a ∈ c_attrs c → a ≠ u "UUID" → plain_attr t k a ∧
  match assoc a (c_enums c) with
  | Some dt => forallb id_char dt = true
  | None => ∃ v, assoc a (c_defaults c) = Some v ∧ ctor_default (mro t k) a = Some v ∧ falsy_val v = true
  end.
Proof using Hr.
  intros Hc Ha Hne. destruct (round_rows c Hc) as [H _]. specialize (H a Ha). unfold round_attr in H.
  apply orb_true_iff in H as [?%str_eqb_eq|H]; [done|]. apply andb_true_iff in H as [[H1 H2]%andb_true_iff H3].
  split; [split_and!; [by apply pub_name_ok|unfold lookup_prop; by destruct (lookup_in (mro t k) a)|eauto]|].
  destruct (assoc a (c_enums c)); [done|]. destruct (assoc a (c_defaults c)) as [v|]; [|done].
  destruct (ctor_default (mro t k) a) as [w|]; [|done]. apply andb_true_iff in H3 as [H3 ->%bool_decide_eq_true]. eauto.
Qed.
Lemma round_ref_ok c r : c ∈ mro t k → r ∈ c_refs c → r ∉ c_many c → key_of r = Pub r ∧
  match lookup_prop t k r with
  | None => ∀ c', c' ∈ mro t k → r ∉ c_attrs c'
  | Some (POneMany _) | Some (POneOne _) | Some PPrivate => True
  | Some (PAlias p _) => ∃ q, lookup_prop t k p = Some (POneMany q)
  | _ => False
  end.
Proof using Hr.
  intros Hc Ha Hne. destruct (round_rows c Hc) as [_ H]. specialize (H r Ha). unfold round_ref in H.
  apply orb_true_iff in H as [?%BlankFacts.existsb_str|H]; [done|]. apply andb_true_iff in H as [H1 H2].
  split; [by apply pub_name_ok|]. unfold lookup_prop. destruct (lookup_in (mro t k) r) as [[]|]; try done.
  - repeat case_match; try done. eauto.
  - apply negb_true_iff in H2. intros c' Hc' Hin. apply Bool.not_true_iff_false in H2. apply H2.
    apply BlankFacts.existsb_str. apply elem_of_list_In, in_flat_map. exists c'. by rewrite <- !elem_of_list_In.
Qed.
End facts.

(** Attributes, single references and collections of a new object. *)
Section blank.
Context (t : schema) (pm : list (name * name)) (tag k : name) (Ht : (t, pm) ∈ tables) (Ha : assoc tag pm = Some k) (Hu : k ∉ unconstructible).
Lemma blank_ws : ∃ ws, (∀ id, blank_new t k [] (uuid_kw id) = Some (ws ++ [(Pub (u "UUID"), BV (VStr id))])) ∧
  blank_check (mro t k) ws = true.
Proof using Ht Ha Hu.
  apply assoc_in in Ha. destruct (map_class t pm tag k Ht Ha) as (c & Hc & _).
  pose proof (blank_one_ok t pm k c Ht Hc) as Hb. rewrite decide_False in Hb by done. destruct Hb as (ws & Hb1 & Hb2).
  exists ws. split; [|done]. intros id. unfold blank_new. rewrite Hc. by apply blank_uuid_chain.
Qed.
Lemma blank_uuid : lookup_prop t k (u "UUID") = None.
Proof using Ht Ha Hu.
  destruct blank_ws as (ws & _ & Hk). unfold blank_check in Hk. apply andb_true_iff in Hk as [Hk _]. unfold lookup_prop.
  by destruct (lookup_in (mro t k) (u "UUID")).
Qed.
Lemma blank_id id : bview t k id (Pub (u "UUID")) = Some (OV (VStr id)).
Proof using Ht Ha Hu.
  destruct blank_ws as (ws & Hn & _). unfold bview. rewrite Hn, last_write_app. cbn [last_write]. by rewrite decide_True.
Qed.
Lemma blank_default id c a v : c ∈ mro t k → a ∈ c_attrs c → a ≠ u "UUID" → lookup_prop t k a = None →
  ctor_default (mro t k) a = Some v → bview t k id (key_of a) = Some (OV v).
Proof using Ht Ha Hu.
  destruct blank_ws as (ws & Hn & Hk). intros Hc Hin Hne Hp Ed.
  unfold blank_check in Hk. apply andb_true_iff in Hk as [_ Hk]. apply (all_rows_ok _ _ _ Hk) in Hc.
  apply andb_true_iff in Hc as [[Hk1 _]%andb_true_iff _].
  apply (all_rows_ok _ _ _ Hk1) in Hin. apply orb_true_iff in Hin as [->%str_eqb_eq|Hin]; [done|].
  rewrite Ed in Hin. apply andb_true_iff in Hin as [[_ Ha2%negb_true_iff]%andb_true_iff Ha3].
  assert (read_slot (lookup_in (mro t k)) a = key_of a) as Hrs.
  { unfold read_slot. unfold lookup_prop in Hp. by rewrite Hp. }
  rewrite Hrs in Ha2, Ha3. unfold bval_is in Ha3. destruct (write_map ws !! key_of a) as [[w|]|] eqn:Em; try done.
  apply andb_true_iff in Ha3 as [->%bool_decide_eq_true _]. by apply (bview_map _ _ _ _ _ _ (Hn id) Em).
Qed.
Lemma blank_single id c r : c ∈ mro t k → r ∈ c_refs c → r ∉ c_many c →
  bview t k id (read_slot (lookup_prop t k) r) = Some (OV VNone).
Proof using Ht Ha Hu.
  destruct blank_ws as (ws & Hn & Hk). intros Hc Hin Hne.
  unfold blank_check in Hk. apply andb_true_iff in Hk as [_ Hk]. apply (all_rows_ok _ _ _ Hk) in Hc.
  apply andb_true_iff in Hc as [[_ Hk1]%andb_true_iff _].
  apply (all_rows_ok _ _ _ Hk1) in Hin. apply orb_true_iff in Hin as [?%BlankFacts.existsb_str|Hin]; [done|].
  apply andb_true_iff in Hin as [Ha2%negb_true_iff Ha3].
  change (lookup_in (mro t k)) with (lookup_prop t k) in *.
  unfold bval_is in Ha3. destruct (write_map ws !! _) as [[w|]|] eqn:Em; try done.
  apply andb_true_iff in Ha3 as [->%bool_decide_eq_true _]. by apply (bview_map _ _ _ _ _ _ (Hn id) Em).
Qed.
Lemma blank_many id c r : c ∈ mro t k → r ∈ c_many c → r ∈ map fst (c_params c) →
  is_alias (lookup_prop t k r) = false ∧ bview t k id (read_slot (lookup_prop t k) r) = Some (OL []).
Proof using Ht Ha Hu.
  destruct blank_ws as (ws & Hn & Hk). intros Hc Hin Hne.
  unfold blank_check in Hk. apply andb_true_iff in Hk as [_ Hk]. apply (all_rows_ok _ _ _ Hk) in Hc.
  apply andb_true_iff in Hc as [_ Hk1]. apply (all_rows_ok _ _ _ Hk1) in Hin. apply orb_true_iff in Hin as [Hin|Hin].
  { apply negb_true_iff, Bool.not_true_iff_false in Hin. exfalso. apply Hin. apply elem_of_list_fmap in Hne as (q & -> & Hq).
    apply existsb_exists. exists q. split; [by apply elem_of_list_In|apply str_eqb_refl]. }
  apply andb_true_iff in Hin as [[Hin1%negb_true_iff Ha2%negb_true_iff]%andb_true_iff Ha3].
  change (lookup_in (mro t k)) with (lookup_prop t k) in *. split; [done|].
  unfold bval_nil in Ha3. destruct (write_map ws !! _) as [[w|]|] eqn:Em; try done. by apply (bview_map _ _ _ _ _ _ (Hn id) Em).
Qed.
End blank.
