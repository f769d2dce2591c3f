(** Checks of the class tables against the ecore models. *)
From Coq Require Import String ZArith.
From stdpp Require Import prelude gmap.
From Verif Require Import PyStr PyHeap Schema Assoc AssocSpec HeapFacts Names TabCIM14 TabCIM15 TabProfiles Tables TableSpec TableFacts
  BlankFacts ArgSpec Reader ReaderSpec VocabSpec VocabFacts Ecore TabEcore EcoreSpec.

Definition emap (M : list eclass) : gmap name eclass := list_to_map ((λ E, (ec_key E, E)) <$> M).
Definition pair_in (k a : name) (l : list (name * name)) : bool := existsb (λ x, str_eqb k x.1 && str_eqb a x.2) l.
Fixpoint same_names (a b : list name) : bool :=
  match a, b with
  | [], [] => true
  | x :: a, y :: b => str_eqb x y && same_names a b
  | _, _ => false
  end.
Definition own_b (k : name) (l : list name) : list name :=
  if existsb (λ x, str_eqb k x.1) extra_features then of_model k l else l.
Definition enum_b (x : name * etype) : option (name * name) :=
  match x.2 with TEnum n _ => Some (x.1, n) | _ => None end.
Definition val_b (v w : val) : bool := bool_decide (v = w).
Definition opp_b (em : gmap name eclass) (r : eref) (q : name) : option eref :=
  F ← em !! f_type r; List.find (λ g, str_eqb q (f_name g)) (ec_refs F).
Definition ref_b (em : gmap name eclass) (E : eclass) (c : cls) (r : eref) : bool :=
  Bool.eqb (existsb (str_eqb (f_name r)) (c_many c)) (f_many r) &&
  match f_opposite r with
  | None => match assoc (f_name r) (c_props c) with None => true | Some _ => false end
  | Some q =>
      match opp_b em r q with
      | None => false
      | Some g => str_eqb (f_type g) (ec_key E) && match f_opposite g with Some x => str_eqb x (f_name r) | None => false end &&
          (pair_in (ec_key E) (f_name r) views ||
          match assoc (f_name r) (c_props c) with Some k => bool_decide (k = end_kind r g) | None => false end)
      end
  end.
Definition impl_b (em : gmap name eclass) (E : eclass) (c : cls) : bool :=
  str_eqb (c_name c) (ec_name E) &&
  match c_base c, ec_super E with
  | None, None => true
  | Some a, Some b => str_eqb a b && match em !! b with Some _ => true | None => false end
  | _, _ => false
  end &&
  same_names (own_b (ec_key E) (c_attrs c)) (map fst (ec_attrs E)) &&
  forallb (λ x, match assoc x.1 (c_defaults c) with Some v => val_b v (zero x.2) | None => false end) (ec_attrs E) &&
  same_names (map fst (c_enums c)) (map fst (omap enum_b (ec_attrs E))) &&
  same_names (map snd (c_enums c)) (map snd (omap enum_b (ec_attrs E))) &&
  same_names (own_b (ec_key E) (c_refs c)) (map f_name (ec_refs E)) &&
  forallb (ref_b em E c) (ec_refs E).
Fixpoint nodup_b (l : list name) : bool :=
  match l with [] => true | x :: r => negb (existsb (str_eqb x) r) && nodup_b r end.
Definition model_b (t : schema) (M : list eclass) : bool :=
  let cm := cmap t in
  let em := emap M in
  forallb (λ E, match cm !! ec_key E with Some c => impl_b em E c | None => false end) M &&
  forallb (λ c, existsb (str_eqb (c_key c)) extra_classes || match em !! c_key c with Some _ => true | None => false end) t &&
  forallb (λ E, nodup_b (map fst (ec_attrs E)) && nodup_b (map f_name (ec_refs E))) M &&
  (size em =? length M)%nat.
Lemma models_true : forallb (λ x, model_b x.1.1 x.2) (zip tables ecores) = true.
Proof. vm_compute. reflexivity. Qed.

(** Along a chain of classes an attribute starts with the default that its class
    declares, and a reference has the kind that its class gives it. *)
Definition public_b (a : name) : bool := match a with 95%N :: _ => false | _ => true end.
Lemma public_b_ok a : public_b a = true → key_of a = Pub a.
Proof. destruct a as [|c a]; [done|]. unfold public_b, key_of. destruct c as [|c]; [done|]. do 7 (destruct c as [c|c|]; try done). Qed.
Definition chain_cls (k : name) (cs : list cls) : bool :=
  let u := existsb (str_eqb k) unconstructible in
  forallb (λ c, (u || forallb (λ a, match ctor_default cs a, assoc a (c_defaults c) with
      | Some v, Some w => val_b v w
      | _, _ => false end) (c_attrs c)) &&
    forallb (λ a, public_b a && match lookup_in cs a with None => true | Some _ => false end) (c_attrs c) &&
    forallb (λ r, match lookup_in cs r, assoc r (c_props c) with
      | None, None => true
      | Some a, Some b => bool_decide (a = b) || pair_in k r repeated
      | _, _ => false end) (c_refs c)) cs.
Definition chain_all (t : schema) (_ : list (name * name)) : bool :=
  let m := cmap t in
  let n := length t in
  forallb (λ c, existsb (str_eqb (c_key c)) extra_classes ||
    chain_cls (c_key c) (mro_map n m (c_key c))) t.
Lemma chain_all_true : all_tables chain_all = true.
Proof. vm_compute. reflexivity. Qed.

(** The package maps, the constructors and the literals. *)
Lemma assoc_map {A} k (l : list (name * A)) : assoc k l = (list_to_map l : gmap name A) !! k.
Proof.
  induction l as [|[k' v] l IH]; [symmetry; apply lookup_empty|]. cbn [assoc]. change (list_to_map ((k', v) :: l) : gmap name A) with (<[k':=v]> (list_to_map l : gmap name A)).
  destruct (str_eqb k k') eqn:E; [apply str_eqb_eq in E as ->; by rewrite lookup_insert|]. rewrite IH. symmetry. apply lookup_insert_ne. intros ->. by rewrite str_eqb_refl in E.
Qed.
Definition rest_b (x : (schema * list (name * name)) * list eclass) : bool :=
  let pm := list_to_map x.1.2 : gmap name name in
  let m := cmap x.1.1 in
  forallb (λ E, (existsb (str_eqb (ec_key E)) shadowed || match pm !! ec_name E with Some k => str_eqb k (ec_key E) | None => false end) &&
    match m !! ec_key E with
    | Some c => forallb (λ r, negb (f_many r) || existsb (str_eqb (f_name r)) (map fst (c_params c)) || pair_in (ec_key E) (f_name r) unbound) (ec_refs E)
    | None => false
    end &&
    forallb (λ a, match a.2 with TEnum _ ls => forallb (λ l, negb (existsb (N.eqb 46) l)) ls | _ => true end) (ec_attrs E)) x.2.
Lemma rest_true : forallb rest_b (zip tables ecores) = true.
Proof. vm_compute. reflexivity. Qed.

Lemma extra_true : forallb (forallb (λ E, negb (existsb (str_eqb (ec_key E)) extra_classes) &&
  forallb (λ x, negb (pair_in (ec_key E) x.1 extra_features)) (ec_attrs E) &&
  forallb (λ r, negb (pair_in (ec_key E) (f_name r) extra_features)) (ec_refs E))) ecores = true.
Proof. vm_compute. reflexivity. Qed.

(** *** What the checks say *)
Lemma same_names_eq a : ∀ b, same_names a b = true → a = b.
Proof.
  induction a as [|x a IH]; intros [|y b] E; try done. cbn [same_names] in E. apply andb_prop in E as [E1 E2].
  apply str_eqb_eq in E1 as ->. by rewrite (IH b E2).
Qed.
Lemma pair_in_iff k a l : pair_in k a l = true ↔ (k, a) ∈ l.
Proof.
  unfold pair_in. rewrite existsb_exists. split.
  - intros ([k' a'] & I & E). cbn [fst snd] in E. apply andb_prop in E as [E1 E2]. apply str_eqb_eq in E1 as ->. apply str_eqb_eq in E2 as ->.
    by apply elem_of_list_In.
  - intros I. exists (k, a). split; [by apply elem_of_list_In|]. cbn [fst snd]. by rewrite !str_eqb_refl.
Qed.
Lemma own_b_ok k l : own_b k l = of_model k l.
Proof.
  unfold own_b. destruct (existsb _ _) eqn:E; [done|]. unfold of_model. induction l as [|a l IH]; [done|].
  rewrite filter_cons_True; [by rewrite <- IH|]. intros I. apply not_true_iff_false in E. apply E. apply existsb_exists.
  exists (k, a). split; [by apply elem_of_list_In|]. apply str_eqb_refl.
Qed.
Lemma emap_some M k E : emap M !! k = Some E → E ∈ M ∧ ec_key E = k.
Proof.
  intros X. apply elem_of_list_to_map_2 in X. apply elem_of_list_fmap in X as (E' & [= -> ->] & I). done.
Qed.
Lemma emap_in M E : NoDup (map ec_key M) → E ∈ M → emap M !! ec_key E = Some E.
Proof.
  intros N I. apply elem_of_list_to_map_1.
  - replace ((λ E, (ec_key E, E)) <$> M).*1 with (map ec_key M); [done|]. clear. induction M as [|E M IH]; [done|]. cbn. by rewrite IH.
  - apply elem_of_list_fmap. by exists E.
Qed.
Lemma nodup_b_ok l : nodup_b l = true → NoDup l.
Proof.
  induction l as [|x l IH]; intros E; [constructor|]. cbn [nodup_b] in E. apply andb_prop in E as [E1 E2]. constructor; [|by apply IH].
  apply negb_true_iff in E1. intros I. apply not_true_iff_false in E1. apply E1. by apply existsb_str.
Qed.
Lemma zip_enum a n (l : list (name * etype)) : (a, n) ∈ omap enum_b l ↔ ∃ ls, (a, TEnum n ls) ∈ l.
Proof.
  rewrite elem_of_list_omap. split.
  - intros ([b ty] & I & E). unfold enum_b in E. cbn [fst snd] in E. destruct ty; try done. injection E as <- <-. by eexists.
  - intros [ls I]. by exists (a, TEnum n ls).
Qed.
Lemma pairs_eq {A B} (a b : list (A * B)) : map fst a = map fst b → map snd a = map snd b → a = b.
Proof.
  revert b. induction a as [|[x y] a IH]; intros [|[x' y'] b] E1 E2; try done. cbn in E1, E2. injection E1 as -> E1. injection E2 as -> E2.
  by rewrite (IH b E1 E2).
Qed.
Lemma find_name q (l : list eref) g : List.find (λ g, str_eqb q (f_name g)) l = Some g → g ∈ l ∧ f_name g = q.
Proof. intros X. apply find_some in X as [I E]. apply str_eqb_eq in E. split; [by apply elem_of_list_In|done]. Qed.
Lemma name_unique (l : list eref) a b : NoDup (map f_name l) → a ∈ l → b ∈ l → f_name a = f_name b → a = b.
Proof.
  induction l as [|x l IH]; [by intros _ ?%elem_of_nil|]. cbn [map]. intros [Hx Hn]%NoDup_cons [->|H1]%elem_of_cons [->|H2]%elem_of_cons E.
  - done.
  - destruct Hx. rewrite E. apply elem_of_list_In, in_map. by apply elem_of_list_In.
  - destruct Hx. rewrite <- E. apply elem_of_list_In, in_map. by apply elem_of_list_In.
  - by apply IH.
Qed.
Lemma key_unique (M : list eclass) a b : NoDup (map ec_key M) → a ∈ M → b ∈ M → ec_key a = ec_key b → a = b.
Proof. intros N I J E. pose proof (emap_in M a N I) as X. rewrite E, (emap_in M b N J) in X. by injection X as ->. Qed.

Lemma ref_b_ok M E c r : NoDup (map ec_key M) → (∀ F, F ∈ M → NoDup (map f_name (ec_refs F))) → ref_b (emap M) E c r = true →
  (f_name r ∈ c_many c ↔ f_many r = true) ∧ (f_opposite r = None → assoc (f_name r) (c_props c) = None) ∧
  (∀ F g, opposite M r F g → (ec_key E, f_name r) ∉ views → assoc (f_name r) (c_props c) = Some (end_kind r g)) ∧
  (∀ q, f_opposite r = Some q → ∃ F g, opposite M r F g) ∧
  (∀ F g, opposite M r F g → f_type g = ec_key E ∧ f_opposite g = Some (f_name r)).
Proof.
  intros N NR X. unfold ref_b in X. apply andb_prop in X as [X1 X2]. apply eqb_prop in X1. split.
  { rewrite <- X1. symmetry. apply existsb_str. }
  destruct (f_opposite r) as [q|] eqn:Eq.
  - split; [done|]. unfold opp_b in X2. destruct (emap M !! f_type r) as [F0|] eqn:EF; [|done]. cbn [mbind option_bind] in X2.
    destruct (List.find _ _) as [g0|] eqn:Eg; [|done]. apply find_name in Eg as [I0 <-]. apply emap_some in EF as [IF EF].
    assert (U : ∀ F g, opposite M r F g → g = g0).
    { intros F g (HF & HK & HG & HO). rewrite Eq in HO. injection HO as HO. assert (F = F0) as -> by (apply (key_unique M); congruence).
      apply (name_unique (ec_refs F0)); [by apply NR|done|done|congruence]. }
    apply andb_prop in X2 as [X3 X2]. apply andb_prop in X3 as [X3 X4]. apply str_eqb_eq in X3. destruct (f_opposite g0) as [y|] eqn:Ey; [|done].
    apply str_eqb_eq in X4. subst y.
    split; [|split; [intros ? [= <-]; exists F0, g0; by repeat split|intros F g O; by rewrite (U F g O)]].
    intros F g O V. rewrite (U F g O). apply orb_prop in X2 as [X2|X2]; [by apply pair_in_iff in X2|]. destruct (assoc (f_name r) (c_props c)) as [k|]; [|done].
    apply bool_decide_eq_true in X2. by rewrite X2.
  - split; [intros _; by destruct (assoc (f_name r) (c_props c))|]. split; [|split; [done|]]; intros F g (_ & _ & _ & ?); congruence.
Qed.
Lemma size_distinct {A} (l : list (name * A)) : size (list_to_map l : gmap name A) = length l → NoDup (map fst l).
Proof.
  assert (∀ l : list (name * A), size (list_to_map l : gmap name A) ≤ length l) as Hle.
  { clear. induction l as [|[k v] l IH]; [change (size (∅ : gmap name A) ≤ 0); by rewrite map_size_empty|].
    change (size (<[k:=v]> (list_to_map l : gmap name A)) ≤ S (length l)). rewrite map_size_insert.
    case_match; [apply Nat.le_le_succ_r; exact IH|apply le_n_S; exact IH]. }
  induction l as [|[k v] l IH]; intros H; [constructor|]. cbn [map fst].
  change (size (<[k:=v]> (list_to_map l : gmap name A)) = S (length l)) in H. rewrite map_size_insert in H.
  destruct (list_to_map l !! k) eqn:E.
  - pose proof (Hle l) as Hl. unfold id in H. rewrite H in Hl. lia.
  - injection H as H. constructor; [|by apply IH]. intros Hin. apply not_elem_of_list_to_map_2 in E. done.
Qed.
Lemma size_keys (M : list eclass) : size (emap M) = length M → NoDup (map ec_key M).
Proof.
  intros E. assert (map ec_key M = map fst ((λ E, (ec_key E, E)) <$> M)) as ->.
  { clear. induction M as [|x M IH]; [done|]. cbn. by rewrite <- IH. }
  apply size_distinct. unfold emap in E. rewrite E. by rewrite fmap_length.
Qed.

Section group.
Context (t : schema) (pm : list (name * name)) (M : list eclass) (Z : ((t, pm), M) ∈ zip tables ecores).
Lemma group_table : (t, pm) ∈ tables.
Proof using Z. eapply elem_of_zip_l, Z. Qed.
Lemma group_parts : NoDup (map ec_key M) ∧ (∀ F, F ∈ M → NoDup (map fst (ec_attrs F)) ∧ NoDup (map f_name (ec_refs F))) ∧
  (∀ E, E ∈ M → ∃ c, find_cls t (ec_key E) = Some c ∧ impl_b (emap M) E c = true) ∧
  (∀ c, c ∈ t → c_key c ∈ extra_classes ∨ ∃ E, E ∈ M ∧ ec_key E = c_key c).
Proof using Z.
  pose proof (all_rows_ok _ _ _ models_true Z) as B. cbn beta iota delta [fst snd] in B. unfold model_b in B. cbv zeta in B.
  apply andb_prop in B as [B B4]. apply andb_prop in B as [B B3]. apply andb_prop in B as [B1 B2].
  apply Nat.eqb_eq, size_keys in B4. split; [done|]. split; [|split].
  - intros F I. apply (all_rows_ok _ _ _ B3) in I. apply andb_prop in I as [I1 I2]. by split; apply nodup_b_ok.
  - intros E I. apply (all_rows_ok _ _ _ B1) in I. cbn beta in I. rewrite cmap_find in I. destruct (find_cls t (ec_key E)) as [c|]; [|done].
    by exists c.
  - intros c I. apply (all_rows_ok _ _ _ B2) in I. cbn beta in I. apply orb_prop in I as [I|I]; [left; by apply existsb_str|right].
    destruct (emap M !! c_key c) as [E|] eqn:X; [|done]. exists E. by apply emap_some.
Qed.
Lemma impl_ok E : E ∈ M → ∃ c, find_cls t (ec_key E) = Some c ∧ Implements M E c ∧ (∀ b, ec_super E = Some b → ∃ F, F ∈ M ∧ ec_key F = b) ∧
  (∀ r q, r ∈ ec_refs E → f_opposite r = Some q → ∃ F g, opposite M r F g) ∧
  (∀ r F g, r ∈ ec_refs E → opposite M r F g → opposite M g E r).
Proof using Z.
  intros I. destruct group_parts as (N & NR & H & _). destruct (H E I) as (c & Ec & B). exists c. split; [done|].
  unfold impl_b in B. apply andb_prop in B as [B B8]. apply andb_prop in B as [B B7]. apply andb_prop in B as [B B6].
  apply andb_prop in B as [B B5]. apply andb_prop in B as [B B4]. apply andb_prop in B as [B B3]. apply andb_prop in B as [B1 B2].
  assert (BR : ∀ r, r ∈ ec_refs E → ref_b (emap M) E c r = true) by (intros r; apply (all_rows_ok _ _ _ B8)).
  assert (NR2 : ∀ F, F ∈ M → NoDup (map f_name (ec_refs F))) by (intros F IF; apply (NR F IF)).
  split; [|split; [|split]].
  - constructor.
    + by apply str_eqb_eq.
    + destruct (c_base c) as [a|], (ec_super E) as [b|]; try done. apply andb_prop in B2 as [B2 _]. apply str_eqb_eq in B2. by subst.
    + apply same_names_eq in B3. by rewrite <- own_b_ok.
    + intros a ty J. apply (all_rows_ok _ _ _ B4) in J. cbn beta iota delta [fst snd] in J. destruct (assoc a (c_defaults c)) as [v|]; [|done].
      apply bool_decide_eq_true in J. by rewrite J.
    + intros a n. rewrite <- zip_enum. apply same_names_eq in B5, B6. by rewrite (pairs_eq _ _ B5 B6).
    + apply same_names_eq in B7. by rewrite <- own_b_ok.
    + intros r J. apply (ref_b_ok M E c r N NR2 (BR r J)).
    + intros r J. apply (ref_b_ok M E c r N NR2 (BR r J)).
    + intros r F g J. apply (ref_b_ok M E c r N NR2 (BR r J)).
  - intros b Eb. rewrite Eb in B2. destruct (c_base c) as [a|]; [|done]. apply andb_prop in B2 as [_ B2].
    destruct (emap M !! b) as [F|] eqn:X; [|done]. exists F. by apply emap_some.
  - intros r q J Q. destruct (ref_b_ok M E c r N NR2 (BR r J)) as (_ & _ & _ & X & _). exact (X q Q).
  - intros r F g J O. destruct (ref_b_ok M E c r N NR2 (BR r J)) as (_ & _ & _ & _ & X). destruct (X F g O) as [X1 X2]. by repeat split.
Qed.
Lemma not_extra E : E ∈ M → ec_key E ∉ extra_classes ∧ (∀ a ty, (a, ty) ∈ ec_attrs E → (ec_key E, a) ∉ extra_features) ∧
  (∀ r, r ∈ ec_refs E → (ec_key E, f_name r) ∉ extra_features).
Proof using Z.
  intros I. pose proof (all_rows_ok _ _ _ extra_true (elem_of_zip_r _ _ _ _ Z)) as B. apply (all_rows_ok _ _ _ B) in I. cbn beta in I.
  apply andb_prop in I as [I I3]. apply andb_prop in I as [I1 I2]. split; [|split].
  - intros J. apply existsb_str in J. by rewrite J in I1.
  - intros a ty J X. apply (all_rows_ok _ _ _ I2) in J. cbn beta iota delta [fst] in J. apply pair_in_iff in X. by rewrite X in J.
  - intros r J X. apply (all_rows_ok _ _ _ I3) in J. cbn beta in J. apply pair_in_iff in X. by rewrite X in J.
Qed.
Lemma inherits_in E F : inherits M E F → E ∈ M ∧ F ∈ M.
Proof using. induction 1 as [E I|E F G I S _ [_ IH]]; done. Qed.
Lemma inherits_class E F : inherits M E F → ∀ cs, derives t (ec_key E) cs → ∃ c, c ∈ cs ∧ find_cls t (ec_key F) = Some c ∧ Implements M F c.
Proof using Z.
  induction 1 as [E I|E F G I S H IH]; intros cs D; destruct (impl_ok E I) as (c & Ec & IM & _); destruct (chains_one t pm _ c group_table Ec) as [_ N];
    destruct (find_cls_in _ _ _ Ec) as [Ic Kc].
  - exists c. split; [|done]. inversion D as [c' Ic' Hb Hk|c' b r Ic' Hb Hr Hk]; subst cs; rewrite (nodup_key t c' c N Ic' Ic) by congruence; left.
  - inversion D as [c' Ic' Hb Hk|c' b r Ic' Hb Hr Hk]; subst cs; assert (c' = c) as -> by (apply (nodup_key t); congruence);
      rewrite (im_base _ _ _ IM), S in Hb; [done|]. injection Hb as <-. destruct (IH r Hr) as (c1 & I1 & R). exists c1. split; [by right|done].
Qed.
Lemma inherits_mro E F : inherits M E F → ∃ c, c ∈ mro t (ec_key E) ∧ find_cls t (ec_key F) = Some c ∧ Implements M F c.
Proof using Z.
  intros H. destruct (inherits_in E F H) as [I _]. destruct (impl_ok E I) as (c & Ec & _). apply (inherits_class E F H).
  apply (chains_one t pm _ c group_table Ec).
Qed.
Lemma chain_ok E : E ∈ M → chain_cls (ec_key E) (mro t (ec_key E)) = true.
Proof using Z.
  intros I. destruct (impl_ok E I) as (c & Ec & _). destruct (find_cls_in _ _ _ Ec) as [Ic Kc].
  pose proof (all_tables_ok _ _ _ chain_all_true group_table) as B. unfold chain_all in B. apply (all_rows_ok _ _ _ B) in Ic. cbn beta in Ic.
  rewrite mro_map_mro, Kc in Ic. apply orb_prop in Ic as [X|Ic]; [|done]. exfalso. apply existsb_str in X.
  by apply (not_extra E I).
Qed.
Lemma attr_own E c a ty : Implements M E c → (a, ty) ∈ ec_attrs E → a ∈ c_attrs c.
Proof using.
  intros IM I. assert (a ∈ map fst (ec_attrs E)) as J by (apply elem_of_list_fmap; by exists (a, ty)).
  rewrite <- (im_attrs _ _ _ IM) in J. apply elem_of_list_filter in J as [_ J]. done.
Qed.
Lemma ref_own E c r : Implements M E c → r ∈ ec_refs E → f_name r ∈ c_refs c.
Proof using.
  intros IM I. assert (f_name r ∈ map f_name (ec_refs E)) as J by (apply elem_of_list_fmap; by exists r).
  rewrite <- (im_refs _ _ _ IM) in J. apply elem_of_list_filter in J as [_ J]. done.
Qed.
Lemma default_zero E F a ty : inherits M E F → ec_key E ∉ unconstructible → (a, ty) ∈ ec_attrs F →
  ctor_default (mro t (ec_key E)) a = Some (zero ty).
Proof using Z.
  intros H U A. destruct (inherits_in E F H) as [I _]. destruct (inherits_mro E F H) as (c & Ic & Ec & IM). pose proof (chain_ok E I) as B.
  apply (all_rows_ok _ _ _ B) in Ic. cbn beta in Ic. apply andb_prop in Ic as [Ic _]. apply andb_prop in Ic as [Ic _].
  pose proof (attr_own F c a ty IM A) as J. apply orb_prop in Ic as [Ic|Ic]; [by apply existsb_str in Ic|].
  apply (all_rows_ok _ _ _ Ic) in J. cbn beta in J. rewrite (im_defaults _ _ _ IM a ty A) in J.
  destruct (ctor_default (mro t (ec_key E)) a) as [v|]; [|done]. apply bool_decide_eq_true in J. by rewrite J.
Qed.
Lemma attr_plain E F a ty : inherits M E F → (a, ty) ∈ ec_attrs F → plain_attr t (ec_key E) a.
Proof using Z.
  intros H A. destruct (inherits_in E F H) as [I _]. destruct (inherits_mro E F H) as (c & Ic & Ec & IM). pose proof (chain_ok E I) as B.
  pose proof Ic as Ic'. apply (all_rows_ok _ _ _ B) in Ic. cbn beta in Ic. apply andb_prop in Ic as [Ic _]. apply andb_prop in Ic as [_ Ic].
  pose proof (attr_own F c a ty IM A) as J. pose proof J as J'. apply (all_rows_ok _ _ _ Ic) in J. cbn beta in J. apply andb_prop in J as [J1 J2].
  split; [by apply public_b_ok|]. split; [|by exists c]. unfold lookup_prop. by destruct (lookup_in (mro t (ec_key E)) a).
Qed.
Lemma ref_kind E F r : inherits M E F → (ec_key E, f_name r) ∉ repeated → r ∈ ec_refs F →
  (f_opposite r = None → lookup_prop t (ec_key E) (f_name r) = None) ∧
  ∀ G g, opposite M r G g → (ec_key F, f_name r) ∉ views → lookup_prop t (ec_key E) (f_name r) = Some (end_kind r g).
Proof using Z.
  intros H NR A. destruct (inherits_in E F H) as [I _]. destruct (inherits_mro E F H) as (c & Ic & Ec & IM). pose proof (chain_ok E I) as B.
  apply (all_rows_ok _ _ _ B) in Ic. cbn beta in Ic. apply andb_prop in Ic as [_ Ic]. pose proof (ref_own F c r IM A) as J.
  apply (all_rows_ok _ _ _ Ic) in J. cbn beta in J. unfold lookup_prop.
  assert (L : lookup_in (mro t (ec_key E)) (f_name r) = assoc (f_name r) (c_props c)).
  { destruct (lookup_in (mro t (ec_key E)) (f_name r)) as [a|], (assoc (f_name r) (c_props c)) as [b|]; try done.
    apply orb_prop in J as [J|J]; [apply bool_decide_eq_true in J; by rewrite J|]. by apply pair_in_iff in J. }
  rewrite L. split; [exact (im_plain _ _ _ IM r A)|]. intros G g. exact (im_assoc _ _ _ IM r G g A).
Qed.
Lemma rest_ok E : E ∈ M → (ec_key E ∉ shadowed → assoc (ec_name E) pm = Some (ec_key E)) ∧
  (∀ c r, find_cls t (ec_key E) = Some c → r ∈ ec_refs E → f_many r = true → (ec_key E, f_name r) ∉ unbound → f_name r ∈ map fst (c_params c)) ∧
  (∀ a n ls l, (a, TEnum n ls) ∈ ec_attrs E → l ∈ ls → 46%N ∉ l).
Proof using Z.
  intros I. pose proof (all_rows_ok _ _ _ rest_true Z) as B. unfold rest_b in B. apply (all_rows_ok _ _ _ B) in I. clear B. cbn beta iota delta [fst snd] in I.
  apply andb_prop in I as [I I3]. apply andb_prop in I as [I1 I2]. split; [|split].
  - intros S. apply orb_prop in I1 as [X|X]; [by apply existsb_str in X|]. rewrite (assoc_map (ec_name E) pm).
    destruct (_ !! _) as [k|]; [|done]. apply str_eqb_eq in X. by rewrite X.
  - intros c r Ec J Y U. rewrite cmap_find, Ec in I2. apply (all_rows_ok _ _ _ I2) in J. cbn beta in J. apply orb_prop in J as [J|J].
    + apply orb_prop in J as [J|J]; [by rewrite Y in J|]. by apply existsb_str in J.
    + by apply pair_in_iff in J.
  - intros a n ls l J K D. apply (all_rows_ok _ _ _ I3) in J. cbn beta iota delta [snd] in J. apply (all_rows_ok _ _ _ J) in K. cbn beta in K.
    apply negb_true_iff in K. apply not_true_iff_false in K. apply K. apply existsb_exists. exists 46%N. split; [by apply elem_of_list_In|apply N.eqb_refl].
Qed.
End group.
