(** [C(UUID=s)] for the classes of the tables: computation over every class,
    lifted to every heap and every identifier. *)
From Coq Require Import String.
From stdpp Require Import prelude gmap.
From Verif Require Import PyStr PyHeap Schema Assoc AssocSpec HeapFacts LinksFacts AssocFacts CtorFacts HistorySpec Names
  TabCIM14 TabCIM15 TabProfiles Tables TableSpec TableFacts.

Definition uuid_kw (s : pystr) : list (name * val) := [(u "UUID", VStr s)].

(** The slots written by [C(UUID=s)] before [Element.__init__] sets UUID. *)
Fixpoint blank_uuid (kind : name → option prop) (cs : list cls) : option (list (key * bval)) :=
  match cs with
  | [] => None
  | c :: r =>
      match assoc (u "UUID") (c_params c) with
      | Some _ =>
          match c_params c, c_steps c, c_kw c, kind (u "UUID") with
          | [_], [SAttr a], false, None => if str_eqb a (u "UUID") then Some [] else None
          | _, _, _, _ => None
          end
      | None =>
          if c_kw c && c_super_ok c then
            a ← blank_steps kind (c_params c) (c_steps c); b ← blank_uuid kind r; Some (a ++ b)
          else None
      end
  end.

Lemma assoc_None {B} k (xs : list (name * B)) : assoc k xs = None ↔ k ∉ map fst xs.
Proof.
  induction xs as [|[k' b] r IH]; simpl; [split; [intros _; apply not_elem_of_nil|done]|].
  destruct (str_eqb k k') eqn:E.
  - apply str_eqb_eq in E as ->. split; [done|]. intros H. destruct H. left.
  - apply str_eqb_neq in E. rewrite IH, not_elem_of_cons. tauto.
Qed.

Lemma bind_uuid_none ps s : assoc (u "UUID") ps = None →
  bind_args ps [] (uuid_kw s) = Some (ps, [], uuid_kw s).
Proof.
  intros Ha. unfold bind_args.
  assert (bind_pos ps [] = ([], ps, [])) as -> by (by destruct ps as [|[]]). 
  match goal with |- context [existsb ?f ?l] => change (existsb f l) with false end. cbn [app]. cbv iota.
  assert (map (λ '(p, d), (p, default d (assoc p (uuid_kw s)))) ps = ps) as ->.
  { assert (∀ d, (u "UUID", d) ∉ ps) as Hn.
    { intros d Hin. apply assoc_None in Ha. destruct Ha. apply elem_of_list_fmap. by exists (u "UUID", d). }
    clear Ha. induction ps as [|[p d] r IH]; [done|]. cbn [map]. f_equal.
    - f_equal. unfold uuid_kw. cbn [assoc]. destruct (str_eqb p (u "UUID")) eqn:E; [|reflexivity]. apply str_eqb_eq in E as ->.
      destruct (Hn d). left.
    - apply IH. intros d' Hin. apply (Hn d'). by right. }
  do 2 f_equal. unfold uuid_kw. rewrite filter_cons_True; [|done]. by rewrite filter_nil.
Qed.

Lemma blank_uuid_chain kind cs s : ∀ ws, blank_uuid kind cs = Some ws →
  blank_chain kind cs [] (uuid_kw s) = Some (ws ++ [(Pub (u "UUID"), BV (VStr s))]).
Proof.
  induction cs as [|c r IH]; intros ws; cbn [blank_uuid blank_chain]; [done|].
  destruct (assoc (u "UUID") (c_params c)) as [d0|] eqn:Ea.
  - destruct (c_params c) as [|[p d] [|]] eqn:Ep; try done.
    destruct (c_steps c) as [|[a| | | | |] [|]] eqn:Es; try done.
    destruct (c_kw c) eqn:Ek; [done|]. destruct (kind (u "UUID")) eqn:Eu; [done|].
    destruct (str_eqb a (u "UUID")) eqn:E; [|done]. apply str_eqb_eq in E as ->. intros [= <-].
    cbn [assoc] in Ea. destruct (str_eqb (u "UUID") p) eqn:E2; [|done]. apply str_eqb_eq in E2 as <-.
    match goal with |- context [bind_args ?x ?y ?z] =>
      change (bind_args x y z) with (Some ([(u "UUID", VStr s)], @nil val, @nil (name * val))) end.
    cbn [negb andb blank_steps blank_step]. rewrite Eu. done.
  - rewrite (bind_uuid_none _ s Ea).
    destruct (c_kw c) eqn:Ek; [|done]. destruct (c_super_ok c) eqn:Es; [|done]. cbn [negb andb].
    destruct (blank_steps kind (c_params c) (c_steps c)) as [a|] eqn:E1; [|done].
    destruct (blank_uuid kind r) as [b|] eqn:E2; [|done]. cbn [mbind option_bind]. intros [= <-].
    rewrite (IH b eq_refl). cbn [mbind option_bind]. by rewrite app_assoc.
Qed.

(** The classes on whose own constructor [C(UUID=s)] fails. *)
Definition blank_raises (kind : name → option prop) (cs : list cls) : bool :=
  match cs with
  | [] => false
  | c :: _ =>
      match assoc (u "UUID") (c_params c) with
      | Some _ => false
      | None =>
          negb (c_kw c) ||
          (negb (c_super_ok c) && match blank_steps kind (c_params c) (c_steps c) with Some _ => true | None => false end)
      end
  end.

Lemma construct_raises S f h ck s :
  Wf h → is_Some (find_cls S ck) → blank_raises (lookup_prop S ck) (mro S ck) = true →
  ∃ h', construct S (Datatypes.S f) ck [] (uuid_kw s) h = (inr TypeError, h') ∧
    ∀ o k, is_Some (cls_of h o) → cls_of h' o = cls_of h o ∧ view h' o k = view h o k.
Proof.
  intros Hwf [c0 Hc0] Hr. unfold construct. rewrite Hc0.
  set (o := fresh_obj h).
  destruct (halloc_facts h o ck) as (Hwf1 & Hc1 & _ & HV1); [done|apply fresh_obj_cls|].
  fold (halloc o ck h). set (h1 := halloc o ck h) in *.
  assert (∀ o', is_Some (cls_of h o') → o' ≠ o) as Hne.
  { intros o' [? Ho'] ->. unfold o in Ho'. by rewrite fresh_obj_cls in Ho'. }
  destruct (mro S ck) as [|c r]; [done|]. unfold blank_raises in Hr. cbn [init_chain].
  destruct (assoc (u "UUID") (c_params c)) as [d0|] eqn:Ea; [done|].
  rewrite (bind_uuid_none _ s Ea).
  destruct (c_kw c); simpl in Hr; cbn [negb andb].
  - destruct (c_super_ok c); simpl in Hr; [done|].
    destruct (blank_steps _ _ _) as [a|] eqn:E1; [|done].
    destruct (blank_steps_run S f o ck (c_params c) (c_steps c) h1 a) as (h2 & E2 & HF2 & HV2);
      [done|by rewrite Hc1, decide_True|done|].
    exists h2. split.
    + erewrite bind_inr; [done|]. erewrite bind_inl; [|done]. done.
    + intros o' k Ho'%Hne. split.
      * rewrite (Frame_cls h1) by done. by rewrite Hc1, decide_False.
      * rewrite HV2, apply_writes_ne by done. apply HV1.
  - exists h1. split; [done|]. intros o' k Ho'%Hne. by rewrite Hc1, decide_False.
Qed.

(** The slot behind [self.p], as the getter reads it. *)
Definition read_slot (kind : name → option prop) (p : name) : key :=
  match kind p with
  | None => key_of p
  | Some (PAlias t _) => Priv t
  | Some _ => Priv p
  end.
Definition is_alias (k : option prop) : bool := match k with Some (PAlias _ _) => true | _ => false end.

Lemma getattr_slot S h o ck p v : cls_of h o = Some ck →
  slot h o (read_slot (lookup_prop S ck) p) = Some v →
  (is_alias (lookup_prop S ck p) = true → v = VNone) →
  fst (getattr S (VRef o) p h) = inl v.
Proof.
  intros Hc Hs Ha. unfold getattr, obj_prop. rewrite Hc. cbn [mbind option_bind].
  unfold read_slot in Hs. destruct (lookup_prop S ck p) as [[]|]; cbn [read_key bind];
    rewrite ?Hs; try done.
  unfold bind, read_key. rewrite Hs, (Ha eq_refl). simpl. done.
Qed.

(** Slot contents after [C(UUID=s)], as a finite map. *)
Definition write_map (ws : list (key * bval)) : gmap key bval := list_to_map (reverse ws).
Lemma last_write_app k a b d : last_write k (a ++ b) d = last_write k b (last_write k a d).
Proof. revert d. induction a as [|[k' c] a IH]; intros d; [done|]. simpl. apply IH. Qed.
Lemma last_write_map k ws b : write_map ws !! k = Some b → last_write k ws None = Some (bov b).
Proof.
  unfold write_map. induction ws as [|[k' c] ws IH] using rev_ind; [done|].
  rewrite reverse_app, last_write_app. simpl. case_decide as Hk.
  - subst. rewrite lookup_insert. naive_solver.
  - rewrite lookup_insert_ne by done. apply IH.
Qed.

Definition key_eqb (a b : key) : bool :=
  match a, b with Pub x, Pub y | Priv x, Priv y => str_eqb x y | _, _ => false end.
Lemma key_eqb_eq a b : key_eqb a b = true ↔ a = b.
Proof. destruct a, b; simpl; rewrite ?str_eqb_eq; naive_solver. Qed.

Definition bval_is (b : option bval) (v : val) : bool :=
  match b with Some (BV w) => bool_decide (w = v) && negb (is_vlist v) | _ => false end.
Definition bval_nil (b : option bval) : bool := match b with Some BNil => true | _ => false end.

Definition blank_check (cs : list cls) (ws : list (key * bval)) : bool :=
  let kind := lookup_in cs in
  let m := write_map ws in
  match kind (u "UUID") with None => true | Some _ => false end &&
  forallb (λ c,
    forallb (λ a, str_eqb a (u "UUID") ||
      match ctor_default cs a with
      | Some d => negb (is_alias (kind a)) && negb (key_eqb (read_slot kind a) (Pub (u "UUID"))) &&
                  bval_is (m !! read_slot kind a) d
      | None => false
      end) (c_attrs c) &&
    forallb (λ r, existsb (str_eqb r) (c_many c) ||
      negb (key_eqb (read_slot kind r) (Pub (u "UUID"))) && bval_is (m !! read_slot kind r) VNone) (c_refs c) &&
    forallb (λ r, negb (existsb (λ q, str_eqb r q.1) (c_params c)) ||
      negb (is_alias (kind r)) && negb (key_eqb (read_slot kind r) (Pub (u "UUID"))) &&
      bval_nil (m !! read_slot kind r)) (c_many c)) cs.

Lemma existsb_str r xs : existsb (str_eqb r) xs = true ↔ r ∈ xs.
Proof.
  rewrite existsb_exists. setoid_rewrite str_eqb_eq. setoid_rewrite <- elem_of_list_In. naive_solver.
Qed.

Lemma view_val h o k v : view h o k = Some (OV v) → is_vlist v = false → slot h o k = Some v.
Proof.
  unfold view. destruct (slot h o k) as [w|]; [|done]. simpl. destruct w; try congruence.
  destruct (h_lists h !! l); simpl; congruence.
Qed.
Lemma view_list h o k xs : view h o k = Some (OL xs) → ∃ l, slot h o k = Some (VList l) ∧ h_lists h !! l = Some xs.
Proof.
  unfold view. destruct (slot h o k) as [w|]; [|done]. simpl. destruct w; try congruence.
  destruct (h_lists h !! l) eqn:E; simpl; [|done]. intros [= <-]. eauto.
Qed.

Lemma construct_Blank S f h ck s ws :
  Wf h → is_Some (find_cls S ck) → blank_uuid (lookup_prop S ck) (mro S ck) = Some ws →
  blank_check (mro S ck) ws = true →
  ∃ o h', construct S (Datatypes.S f) ck [] (uuid_kw s) h = (inl (VRef o), h') ∧ Wf h' ∧ Blank S h h' o ck s.
Proof.
  intros Hwf [c0 Hc0] Hb Hk.
  assert (blank_new S ck [] (uuid_kw s) = Some (ws ++ [(Pub (u "UUID"), BV (VStr s))])) as Hn.
  { unfold blank_new. rewrite Hc0. by apply blank_uuid_chain. }
  destruct (construct_blank S f h ck [] _ _ Hwf Hn) as (h' & E & Hwf' & _ & Hc & HV).
  set (o := fresh_obj h) in *. exists o, h'. split; [done|]. split; [done|].
  assert (cls_of h' o = Some ck) as Hco by (by rewrite Hc, decide_True).
  assert (∀ k, view h o k = None) as HVo.
  { intros k. destruct (view h o k) eqn:Ev; [|done]. apply view_Some_cls in Ev.
    unfold o in Ev. rewrite fresh_obj_cls in Ev. by destruct Ev. }
  assert (∀ k b, write_map ws !! k = Some b → key_eqb k (Pub (u "UUID")) = false → view h' o k = Some (bov b)) as Hget.
  { intros k b Hm Hke. rewrite HV, apply_writes_self, HVo, last_write_app, (last_write_map _ _ _ Hm).
    cbn [last_write]. rewrite decide_False; [done|]. intros ->. by rewrite (proj2 (key_eqb_eq _ _) eq_refl) in Hke. }
  assert (∀ p v, bval_is (write_map ws !! read_slot (lookup_prop S ck) p) v = true →
     key_eqb (read_slot (lookup_prop S ck) p) (Pub (u "UUID")) = false →
     (is_alias (lookup_prop S ck p) = true → v = VNone) →
     fst (getattr S (VRef o) p h') = inl v) as Hval.
  { intros p v Hm Hke Hal. unfold bval_is in Hm.
    destruct (write_map ws !! _) as [[w|]|] eqn:Em; [|done..].
    apply andb_true_iff in Hm as [->%bool_decide_eq_true Hl%negb_true_iff].
    eapply getattr_slot; [done| |done]. apply view_val; [|done]. by apply (Hget _ _ Em). }
  unfold blank_check in Hk. fold (lookup_prop S ck) in Hk.
  apply andb_true_iff in Hk as [Hku Hk].
  assert (lookup_prop S ck (u "UUID") = None) as Hku'.
  { unfold lookup_prop. by destruct (lookup_in (mro S ck) (u "UUID")). }
  split.
  - apply fresh_obj_cls.
  - done.
  - eapply getattr_slot; [done| |by rewrite Hku'].
    unfold read_slot. rewrite Hku'. apply view_val; [|done].
    rewrite HV, apply_writes_self, HVo, last_write_app. cbn [last_write].
    rewrite decide_True; [done|]. by vm_compute.
  - intros c a Hin Ha Hne. apply (all_rows_ok _ _ _ Hk) in Hin.
    apply andb_true_iff in Hin as [Hin _]. apply andb_true_iff in Hin as [Hin _].
    apply (all_rows_ok _ _ _ Hin) in Ha. apply orb_true_iff in Ha as [->%str_eqb_eq|Ha]; [done|].
    destruct (ctor_default (mro S ck) a) as [d|]; [|done]. exists d. split; [done|].
    apply andb_true_iff in Ha as [[Ha1%negb_true_iff Ha2%negb_true_iff]%andb_true_iff Ha3].
    apply Hval; [done..|]. intros Ht. unfold lookup_prop in Ht. congruence.
  - intros c r Hin Hr Hnm. apply (all_rows_ok _ _ _ Hk) in Hin.
    apply andb_true_iff in Hin as [[_ Hin]%andb_true_iff _].
    apply (all_rows_ok _ _ _ Hin) in Hr. apply orb_true_iff in Hr as [Hr%existsb_str|Hr]; [done|].
    apply andb_true_iff in Hr as [Hr1%negb_true_iff Hr2]. apply Hval; done.
  - intros c r Hin Hr Hp. apply (all_rows_ok _ _ _ Hk) in Hin.
    apply andb_true_iff in Hin as [_ Hin].
    apply (all_rows_ok _ _ _ Hin) in Hr. apply orb_true_iff in Hr as [Hr|Hr].
    { apply negb_true_iff in Hr. apply elem_of_list_fmap in Hp as (q & -> & Hq).
      assert (existsb (λ q', str_eqb q.1 q'.1) (c_params c) = true) as Hx; [|congruence].
      apply existsb_exists. exists q. split; [by apply elem_of_list_In|apply str_eqb_refl]. }
    apply andb_true_iff in Hr as [[Hr1%negb_true_iff Hr2%negb_true_iff]%andb_true_iff Hr3].
    unfold bval_nil in Hr3. destruct (write_map ws !! _) as [[|]|] eqn:Em; [done| |done].
    specialize (Hget _ _ Em Hr2). apply view_list in Hget as (l & Hs & Hl).
    exists l, (read_slot (lookup_in (mro S ck)) r). split_and!; [|done|done|].
    + eapply getattr_slot; [done|done|]. intros Ht. unfold lookup_prop in Ht. congruence.
    + intros o' k' Hs'. destruct (wf_unshared _ Hwf' _ _ _ _ _ Hs Hs') as [-> ->]. done.
  - intros o' k Hne. rewrite Hc, decide_False by done. split; [done|]. rewrite HV. by apply apply_writes_ne.
Qed.

(** *** All classes of all tables *)
(** The class table as a finite map, to compute with. *)
Definition cmap (S : schema) : gmap name cls := list_to_map ((λ c, (c_key c, c)) <$> S).
Lemma cmap_find S k : cmap S !! k = find_cls S k.
Proof.
  unfold cmap. induction S as [|c r IH]; [done|]. simpl. destruct (str_eqb k (c_key c)) eqn:E.
  - apply str_eqb_eq in E as ->. by rewrite lookup_insert.
  - apply str_eqb_neq in E. by rewrite lookup_insert_ne.
Qed.
Fixpoint mro_map (fuel : nat) (m : gmap name cls) (k : name) : list cls :=
  match fuel with
  | O => []
  | Datatypes.S f =>
      match m !! k with
      | None => []
      | Some c => c :: match c_base c with None => [] | Some b => mro_map f m b end
      end
  end.
Lemma mro_map_mro S k : mro_map (length S) (cmap S) k = mro S k.
Proof.
  unfold mro. generalize (length S) as f. intros f. revert k. induction f as [|f IH]; intros k; [done|]. simpl.
  rewrite cmap_find. destruct (find_cls S k) as [c|]; [|done]. f_equal. destruct (c_base c); [apply IH|done].
Qed.

Definition blank_one (n : nat) (m : gmap name cls) (k : name) : bool :=
  let cs := mro_map n m k in
  if existsb (str_eqb k) unconstructible then blank_raises (lookup_in cs) cs
  else match blank_uuid (lookup_in cs) cs with Some ws => blank_check cs ws | None => false end.
Definition blank_all (t : schema) (pm : list (name * name)) : bool :=
  let m := cmap t in
  let n := length t in
  forallb (λ c, blank_one n m (c_key c)) t &&
  forallb (λ '(tag, k), match m !! k with Some c => str_eqb (c_name c) tag | None => false end) pm.
Lemma blank_all_true : all_tables blank_all = true.
Proof. vm_compute. reflexivity. Qed.

Lemma find_cls_in S k c : find_cls S k = Some c → c ∈ S ∧ c_key c = k.
Proof.
  induction S as [|d r IH]; [done|]. simpl. destruct (str_eqb k (c_key d)) eqn:E.
  - intros [= <-]. apply str_eqb_eq in E. split; [left|done].
  - intros [? ?]%IH. split; [by right|done].
Qed.

Lemma blank_one_ok t pm k c : (t, pm) ∈ tables → find_cls t k = Some c →
  if decide (k ∈ unconstructible) then blank_raises (lookup_prop t k) (mro t k) = true
  else ∃ ws, blank_uuid (lookup_prop t k) (mro t k) = Some ws ∧ blank_check (mro t k) ws = true.
Proof.
  intros Ht Hc. pose proof (all_tables_ok _ _ _ blank_all_true Ht) as Hb.
  apply andb_true_iff in Hb as [Hb _]. destruct (find_cls_in _ _ _ Hc) as [Hin Hk].
  apply (all_rows_ok _ _ _ Hb) in Hin. rewrite Hk in Hin. unfold blank_one in Hin. rewrite mro_map_mro in Hin.
  fold (lookup_prop t k) in Hin. case_decide as Hu.
  - apply existsb_str in Hu. by rewrite Hu in Hin.
  - destruct (existsb _ _) eqn:E; [by apply existsb_str in E|].
    fold (lookup_prop t k). change (lookup_prop t k) with (lookup_in (mro t k)).
    destruct (blank_uuid _ _) as [ws|]; [|done]. eauto.
Qed.

Lemma new_blank t pm k c f h s :
  (t, pm) ∈ tables → find_cls t k = Some c → k ∉ unconstructible → Wf h →
  ∃ o h', construct t (S f) k [] (uuid_kw s) h = (inl (VRef o), h') ∧ Wf h' ∧ Blank t h h' o k s.
Proof.
  intros Ht Hc Hu Hwf. pose proof (blank_one_ok t pm k c Ht Hc) as Hb. rewrite decide_False in Hb by done.
  destruct Hb as (ws & Hb1 & Hb2). eapply construct_Blank; eauto.
Qed.
Lemma new_raises t pm k c f h s :
  (t, pm) ∈ tables → find_cls t k = Some c → k ∈ unconstructible → Wf h →
  ∃ h', construct t (S f) k [] (uuid_kw s) h = (inr TypeError, h') ∧
    ∀ o k', is_Some (cls_of h o) → cls_of h' o = cls_of h o ∧ view h' o k' = view h o k'.
Proof.
  intros Ht Hc Hu Hwf. pose proof (blank_one_ok t pm k c Ht Hc) as Hb. rewrite decide_True in Hb by done.
  apply construct_raises; eauto.
Qed.
Lemma map_class t pm tag k : (t, pm) ∈ tables → (tag, k) ∈ pm → ∃ c, find_cls t k = Some c ∧ c_name c = tag.
Proof.
  intros Ht Hin. pose proof (all_tables_ok _ _ _ blank_all_true Ht) as Hb.
  apply andb_true_iff in Hb as [_ Hb]. apply (all_rows_ok _ _ _ Hb) in Hin. simpl in Hin.
  rewrite cmap_find in Hin. destruct (find_cls t k) as [c|]; [|done]. exists c. split; [done|].
  by apply str_eqb_eq.
Qed.
