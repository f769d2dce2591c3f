(** Constructor arguments: the order of keywords, and keywords nobody takes. *)
From Coq Require Import String.
From stdpp Require Import prelude gmap.
From Verif Require Import PyStr PyHeap Schema Assoc AssocSpec HeapFacts Tables TableSpec TableFacts BlankFacts CreateFacts ArgSpec TabCIM15
  Reader ReaderSpec FrameFacts.

(** *** The order of keyword arguments *)
Lemma assoc_perm {B} (xs ys : list (name * B)) k : xs ≡ₚ ys → NoDup (map fst xs) → assoc k xs = assoc k ys.
Proof.
  intros Hp. induction Hp as [|[a b] l l' Hp IH|[a b] [a' b'] l|l l' l'' H1 IH1 H2 IH2]; intros Hn; [done|..].
  - cbn [assoc]. destruct (str_eqb k a); [done|]. apply IH. by inversion Hn.
  - cbn [assoc]. destruct (str_eqb k a) eqn:Ha; destruct (str_eqb k a') eqn:Ha'; try done.
    apply str_eqb_eq in Ha, Ha'. subst. inversion Hn as [|?? Hx _]; subst. destruct Hx. left.
  - rewrite IH1 by done. apply IH2. by rewrite <- H1.
Qed.
Lemma existsb_perm {A} (f : A → bool) xs ys : xs ≡ₚ ys → existsb f xs = existsb f ys.
Proof.
  induction 1; cbn [existsb]; [done|by rewrite IHPermutation| |by etransitivity].
  by rewrite !orb_assoc, (orb_comm (f x)).
Qed.
Lemma NoDup_fst_filter {B} (P : name * B → Prop) `{!∀ x, Decision (P x)} (xs : list (name * B)) :
  NoDup (map fst xs) → NoDup (map fst (filter P xs)).
Proof.
  induction xs as [|x xs IH]; [done|]. cbn [map]. intros [Hx Hn]%NoDup_cons. rewrite filter_cons.
  destruct (decide (P x)); [|by apply IH]. cbn [map]. apply NoDup_cons. split; [|by apply IH].
  intros (y & Hy & Hin)%elem_of_list_fmap. apply elem_of_list_filter in Hin as [_ Hin].
  apply Hx. apply elem_of_list_fmap. by exists y.
Qed.

Section perm.
Context (S : schema).

Lemma bind_args_perm ps pos kw kw' : kw ≡ₚ kw' → NoDup (map fst kw) →
  match bind_args ps pos kw, bind_args ps pos kw' with
  | None, None => True
  | Some (env, extra, k1), Some (env', extra', k2) => env = env' ∧ extra = extra' ∧ k1 ≡ₚ k2 ∧ NoDup (map fst k1)
  | _, _ => False
  end.
Proof.
  intros Hp Hn. unfold bind_args. destruct (bind_pos ps pos) as [[bound rest] extra].
  rewrite (existsb_perm _ kw kw') by done. destruct (existsb _ kw'); [done|].
  split_and!; [|done| |by apply NoDup_fst_filter].
  - f_equal. apply map_ext. intros [p d]. by rewrite (assoc_perm kw kw').
  - by rewrite Hp.
Qed.

Lemma init_chain_perm fuel cs self : ∀ pos kw kw' h, kw ≡ₚ kw' → NoDup (map fst kw) →
  init_chain S fuel cs self pos kw h = init_chain S fuel cs self pos kw' h.
Proof.
  induction cs as [|c cs IH]; intros pos kw kw' h Hp Hn; cbn [init_chain].
  - destruct kw as [|x kw]; [by apply Permutation_nil in Hp as ->|].
    destruct kw' as [|y kw']; [by apply Permutation_nil_r in Hp|]. done.
  - pose proof (bind_args_perm (c_params c) pos kw kw' Hp Hn) as Hb.
    destruct (bind_args (c_params c) pos kw) as [[[env extra] k1]|];
      destruct (bind_args (c_params c) pos kw') as [[[env' extra'] k2]|]; try done.
    destruct Hb as (<- & <- & Hk & Hn1).
    replace (match extra, k2 with [], [] => true | _, _ => false end)
      with (match extra, k1 with [], [] => true | _, _ => false end)
      by (destruct extra; [|done]; destruct k1; [by apply Permutation_nil in Hk as ->|];
          destruct k2; [by apply Permutation_nil_r in Hk|done]).
    destruct (negb (c_kw c) && _); [done|]. unfold bind.
    destruct (for_each (c_steps c) (run_step S fuel self env) h) as [[[]|e] h1]; [|done].
    destruct (c_kw c); [|done]. destruct (c_super_ok c); [|done]. by apply IH.
Qed.

Lemma construct_perm fuel ck pos kw kw' h : kw ≡ₚ kw' → NoDup (map fst kw) →
  construct S fuel ck pos kw h = construct S fuel ck pos kw' h.
Proof.
  intros Hp Hn. unfold construct. destruct (find_cls S ck); [|done]. cbv zeta. unfold bind.
  by rewrite (init_chain_perm fuel (mro S ck) _ pos kw kw').
Qed.
End perm.

(** *** Keywords no class takes *)
Section unknown.
Context (S : schema).
Lemma bind_pos_names ps : ∀ pos b r x, bind_pos ps pos = (b, r, x) → map fst ps = map fst b ++ map fst r.
Proof.
  induction ps as [|[p d] ps IH]; intros pos b r x; cbn [bind_pos]; [by intros [= <- <- <-]|].
  destruct pos as [|a pos]; [by intros [= <- <- <-]|].
  destruct (bind_pos ps pos) as [[b' r'] x'] eqn:E. intros [= <- <- <-]. cbn [map fst app]. f_equal. by eapply IH.
Qed.
Lemma assoc_not {B} k (xs : list (name * B)) : k ∉ map fst xs → assoc k xs = None.
Proof. apply assoc_None. Qed.
Lemma assoc_app_not {B} k (xs ys : list (name * B)) : k ∉ map fst ys → assoc k (xs ++ ys) = assoc k xs.
Proof.
  intros Hn. rewrite assoc_app. destruct (assoc k xs); [done|]. by apply assoc_not.
Qed.

Lemma bind_args_untaken ps pos kw extra : (∀ n v, (n, v) ∈ extra → n ∉ map fst ps) →
  bind_args ps pos (kw ++ extra) =
    match bind_args ps pos kw with Some (env, x, kw') => Some (env, x, kw' ++ extra) | None => None end.
Proof.
  intros Hu. unfold bind_args. destruct (bind_pos ps pos) as [[bound rest] x] eqn:E.
  pose proof (bind_pos_names _ _ _ _ _ E) as Hnames.
  assert (∀ n v, (n, v) ∈ extra → n ∉ map fst bound ∧ n ∉ map fst rest) as Hu'.
  { intros n v Hin. specialize (Hu n v Hin). rewrite Hnames, elem_of_app in Hu. tauto. }
  rewrite existsb_app.
  assert (existsb (λ '(k, _), match assoc k bound with Some _ => true | None => false end) extra = false) as ->.
  { apply not_true_is_false. intros Hex%existsb_exists. destruct Hex as ([n v] & Hin & Hx).
    apply elem_of_list_In in Hin. destruct (Hu' n v Hin) as [Hb _]. by rewrite (assoc_not n bound Hb) in Hx. }
  rewrite orb_false_r. destruct (existsb _ kw); [done|]. f_equal. f_equal; [f_equal|].
  - f_equal. apply map_ext_in. intros [p d] Hin. rewrite assoc_app_not; [done|].
    intros (y & Hy & Hiny)%elem_of_list_fmap. destruct y as [n v]. cbn [fst] in Hy. subst n.
    destruct (Hu' p v Hiny) as [_ Hr]. apply Hr. apply elem_of_list_fmap. exists (p, d). split; [done|].
    by apply elem_of_list_In.
  - rewrite filter_app. f_equal. clear E Hnames Hu. induction extra as [|[n v] extra IH]; [done|].
    rewrite filter_cons. rewrite decide_True.
    + f_equal. apply IH. intros; apply (Hu' _ v0); by right.
    + destruct (Hu' n v) as [_ Hr]; [by left|]. by apply assoc_not.
Qed.

Lemma app_nonempty {A} (xs ys : list A) : ys ≠ [] → xs ++ ys ≠ [].
Proof. destruct xs; done. Qed.

Lemma init_chain_untaken fuel self extra : extra ≠ [] → ∀ cs pos kw h, untaken cs extra →
  ∃ e h', init_chain S fuel cs self pos (kw ++ extra) h = (inr e, h').
Proof.
  intros Hne. induction cs as [|c cs IH]; intros pos kw h Hu; cbn [init_chain].
  - pose proof (app_nonempty kw extra Hne). destruct (kw ++ extra) as [|x l]; [done|].
    destruct pos; by eexists _, _.
  - rewrite bind_args_untaken by (intros n v; apply Hu; left).
    destruct (bind_args (c_params c) pos kw) as [[[env x] kw']|]; [|by eexists _, _].
    destruct (c_kw c) eqn:Ek; cbn [negb andb].
    + unfold bind. destruct (for_each (c_steps c) (run_step S fuel self env) h) as [[[]|e] h1]; [|by eexists _, _].
      destruct (c_super_ok c); [|by eexists _, _]. apply IH. intros c' n v Hc'. apply Hu. by right.
    + pose proof (app_nonempty kw' extra Hne). destruct (kw' ++ extra) as [|y l]; [done|].
      destruct x; by eexists _, _.
Qed.

(** A base-class chain that ends in Element; the other classes pass on the
    keywords they do not take. *)
Definition ends_in_element (cs : list cls) : Prop :=
  ∃ pre e d, cs = pre ++ [e] ∧ Forall (λ c, c_kw c = true) pre ∧ c_kw e = false ∧
    c_params e = [(u "UUID", d)] ∧ c_steps e = [SAttr (u "UUID")].

Lemma init_chain_unknown fuel self extra cs : extra ≠ [] → ends_in_element cs → ∀ pos kw h h', untaken cs extra →
  init_chain S fuel cs self pos kw h = (inl tt, h') →
  ∃ h'' v, init_chain S fuel cs self pos (kw ++ extra) h = (inr TypeError, h'') ∧
    setattr S fuel self (u "UUID") v h'' = (inl tt, h').
Proof.
  intros Hne (pre & e & d & -> & Hpre & Hek & Hep & Hes). induction Hpre as [|c pre Hc Hpre IH]; intros pos kw h h' Hu; cbn [init_chain app].
  - rewrite bind_args_untaken by (intros n v; apply Hu; left).
    destruct (bind_args (c_params e) pos kw) as [[[env x] kw']|]; [|done]. rewrite Hek. cbn [negb andb].
    pose proof (app_nonempty kw' extra Hne). destruct (match x with [] => match kw' with [] => true | _ => false end | _ => false end) eqn:E;
      cbn [negb]; [|done].
    destruct x; [|done]. destruct kw'; [|done]. cbn [app]. destruct extra as [|y l]; [done|].
    cbn [negb]. rewrite Hes. cbn [for_each run_step]. intros Hr.
    exists h. exists (env_get env (u "UUID")). split; [done|].
    unfold bind, ret in Hr. destruct (setattr S fuel self (u "UUID") (env_get env (u "UUID")) h) as [[[]|?] ?]; [|done]. done.
  - rewrite bind_args_untaken by (intros n v; apply Hu; left).
    destruct (bind_args (c_params c) pos kw) as [[[env x] kw']|]; [|done]. rewrite Hc. cbn [negb andb].
    unfold bind. destruct (for_each (c_steps c) (run_step S fuel self env) h) as [[[]|?] h1]; [|done].
    destruct (c_super_ok c); [|done]. apply IH. intros c' n v Hc'. apply Hu. by right.
Qed.

Lemma construct_untaken fuel ck pos kw extra h : extra ≠ [] → untaken (mro S ck) extra →
  ∃ e h', construct S fuel ck pos (kw ++ extra) h = (inr e, h').
Proof.
  intros Hne Hu. unfold construct. destruct (find_cls S ck); [|by eexists _, _]. cbv zeta.
  match goal with |- context [(bind ?m ?k) ?h1] => destruct (init_chain_untaken fuel (VRef (fresh_obj h)) extra Hne (mro S ck) pos kw h1 Hu) as (e & h' & E) end.
  exists e, h'. by apply bind_inr.
Qed.
Lemma construct_unknown fuel ck pos kw extra h o h' : extra ≠ [] → untaken (mro S ck) extra → ends_in_element (mro S ck) →
  construct S fuel ck pos kw h = (inl (VRef o), h') →
  ∃ h'' v, construct S fuel ck pos (kw ++ extra) h = (inr TypeError, h'') ∧ setattr S fuel (VRef o) (u "UUID") v h'' = (inl tt, h').
Proof.
  intros Hne Hu He. unfold construct. destruct (find_cls S ck); [|done]. cbv zeta. intros Hr.
  apply bind_inv in Hr as ([] & h1 & Hi & Hr). unfold ret in Hr. injection Hr as <- <-.
  destruct (init_chain_unknown _ _ _ _ Hne He _ _ _ _ Hu Hi) as (h'' & v & H1 & H2).
  exists h'', v. split; [by apply bind_inr|done].
Qed.

(** Constructors keep the classes of the objects there were. *)
Lemma construct_fresh fuel ck pos kw h o h' : construct S fuel ck pos kw h = (inl (VRef o), h') → o = fresh_obj h.
Proof.
  unfold construct. destruct (find_cls S ck); [|done]. cbv zeta. intros ([] & h1 & _ & Hr)%bind_inv.
  unfold ret in Hr. by injection Hr as <- <-.
Qed.
Lemma construct_classes fuel ck pos kw h r h' c : find_cls S ck = Some c →
  construct S fuel ck pos kw h = (r, h') →
  cls_of h' (fresh_obj h) = Some ck ∧ ∀ o, is_Some (cls_of h o) → cls_of h' o = cls_of h o.
Proof.
  intros Hc Hr. unfold construct in Hr. rewrite Hc in Hr. cbv zeta in Hr.
  set (h1 := Heap _ _) in Hr.
  assert (pres (classes_kept h1) (init_chain S fuel (mro S ck) (VRef (fresh_obj h)) pos kw ;;; ret (VRef (fresh_obj h)))) as HP.
  { apply pres_bind; [|intros; apply pres_ret].
    apply (pres_init S (classes_kept h1) (λ _ _, True)); try done. intros o k v h2 H2 _ o' Ho'. rewrite cls_hset. by apply H2. }
  specialize (HP h1 ltac:(done)). rewrite Hr in HP. cbn [snd] in HP.
  assert (cls_of h1 (fresh_obj h) = Some ck) as Hn by (unfold cls_of, h1; cbn [h_objs]; by rewrite lookup_insert).
  split; [rewrite HP by (rewrite Hn; eauto); done|]. intros o Ho.
  assert (cls_of h1 o = cls_of h o) as E by (apply cls_alloc, fresh_obj_alive, Ho). rewrite HP by (rewrite E; done). done.
Qed.
Lemma construct_unknown_exact f ck pos kw extra h o h' : extra ≠ [] → untaken (mro S ck) extra →
  ends_in_element (mro S ck) → lookup_prop S ck (u "UUID") = None →
  construct S (Datatypes.S f) ck pos kw h = (inl (VRef o), h') →
  ∃ h'' v, construct S (Datatypes.S f) ck pos (kw ++ extra) h = (inr TypeError, h'') ∧ h' = hset o (Pub (u "UUID")) v h''.
Proof.
  intros Hne Hu He Hl Hr. destruct (construct_unknown _ _ _ _ _ _ _ _ Hne Hu He Hr) as (h'' & v & Hx & Hs).
  exists h'', v. split; [done|]. pose proof (construct_fresh _ _ _ _ _ _ _ Hr) as ->.
  destruct (find_cls S ck) as [c|] eqn:Ec; [|unfold construct in Hr; by rewrite Ec in Hr].
  destruct (construct_classes _ _ _ _ _ _ _ _ Ec Hx) as [Hcl _].
  assert (obj_prop S h'' (fresh_obj h) (u "UUID") = None) as Ho by (unfold obj_prop; by rewrite Hcl).
  cbn [setattr] in Hs. rewrite Ho in Hs. change (key_of (u "UUID")) with (Pub (u "UUID")) in Hs.
  unfold write_key in Hs. destruct (h_objs h'' !! fresh_obj h) eqn:Eo; [|done]. by injection Hs as <-.
Qed.
End unknown.

(** *** Positional arguments *)
Lemma elem_of_drop_sub {A} n (l : list A) x : x ∈ drop n l → x ∈ l.
Proof. rewrite <- (take_drop n l) at 2. rewrite elem_of_app. by right. Qed.
Section positional.
Context (S : schema).
Lemma bind_pos_zip ps : ∀ pos, bind_pos ps pos = (zip (map fst ps) pos, drop (length pos) ps, drop (length ps) pos).
Proof.
  induction ps as [|[p d] ps IH]; intros [|a pos]; cbn [bind_pos map fst zip zip_with length drop]; try done.
  by rewrite IH.
Qed.
Lemma assoc_zip_None {B} k (xs : list name) (ys : list B) : k ∉ take (length ys) xs → assoc k (zip xs ys) = None.
Proof.
  intros Hk. apply assoc_None. intros Hin. apply Hk. clear Hk. revert ys Hin.
  induction xs as [|x xs IH]; intros [|y ys]; cbn [zip zip_with map fst length take]; try done.
  intros [->|Hin]%elem_of_cons; [left|]. right. by apply IH.
Qed.
Lemma map_fst_zip_take {B} (xs : list name) : ∀ ys : list B, map fst (zip xs ys) = take (length ys) xs.
Proof.
  induction xs as [|x xs IH]; intros [|y ys]; cbn [zip zip_with map fst length take]; try done. by rewrite IH.
Qed.
Lemma env_zip (kw : list (name * val)) : ∀ ps more pos, NoDup (map fst ps ++ more) →
  (∀ n, n ∈ map fst kw → n ∉ take (length pos) (map fst ps ++ more)) →
  zip (map fst ps) pos ++ map (λ '(p, d), (p, default d (assoc p kw))) (drop (length pos) ps) =
  map (λ '(p, d), (p, default d (assoc p (zip (map fst ps ++ more) pos ++ kw)))) ps.
Proof.
  intros ps more. induction ps as [|[p d] ps IH]; intros pos Hn Hk; [by rewrite drop_nil|].
  cbn [map fst app] in Hn, Hk. apply NoDup_cons in Hn as [Hp Hn].
  destruct pos as [|a pos]; [by cbn [length zip zip_with map fst app drop]|].
  cbn [zip zip_with map fst length drop app assoc] in *. rewrite str_eqb_refl. cbn [default]. f_equal.
  rewrite IH; [|done|].
  - apply map_ext_in. intros [p' d'] Hin. cbn [assoc]. rewrite (proj2 (str_eqb_neq p' p)); [done|].
    intros ->. apply Hp. apply elem_of_app. left. apply elem_of_list_fmap. exists (p, d'). split; [done|].
    by apply elem_of_list_In.
  - intros n Hin Ht. apply (Hk n Hin). cbn [take]. by right.
Qed.
Lemma filter_zip (ps : list (name * val)) more : ∀ pos : list val, NoDup (map fst ps ++ more) →
  filter (λ '(k, _), assoc k ps = None) (zip (map fst ps ++ more) pos) = zip more (drop (length ps) pos).
Proof.
  intros pos Hn.
  assert (∀ pre ps' (pos : list val), ps = pre ++ ps' → 
    filter (λ '(k, _), assoc k ps = None) (zip (map fst ps' ++ more) pos) = zip more (drop (length ps') pos)) as H.
  2: { by apply (H [] ps). }
  clear pos. intros pre ps'. revert pre. induction ps' as [|[p d] ps' IH]; intros pre pos E; cbn [map fst app length].
  - rewrite app_nil_r in E. subst pre. rewrite drop_0. apply NoDup_app in Hn as (_ & Hd & _).
    assert (∀ n, n ∈ more → assoc n ps = None) as Hm.
    { intros n Hin. apply assoc_None. intros Hn. exact (Hd n Hn Hin). }
    clear Hd. revert pos. induction more as [|n more IH]; intros [|a pos]; cbn [zip zip_with]; try done.
    rewrite filter_cons, decide_True by (apply Hm; left). f_equal. apply IH. intros; apply Hm; by right.
  - destruct pos as [|a pos]; [by cbn [zip zip_with]; destruct more|]. cbn [zip zip_with drop].
    rewrite filter_cons, decide_False.
    + apply (IH (pre ++ [(p, d)])). rewrite <- app_assoc. done.
    + subst ps. rewrite assoc_app. destruct (assoc p pre) eqn:Ep; [done|]. cbn [assoc]. by rewrite str_eqb_refl.
Qed.
Lemma bind_args_zip ps more pos kw : NoDup (map fst ps ++ more) →
  (∀ n, n ∈ map fst kw → n ∉ take (length pos) (map fst ps ++ more)) → length pos ≤ length (map fst ps ++ more) →
  ∃ env kw', bind_args ps pos kw = Some (env, drop (length ps) pos, kw') ∧
    bind_args ps [] (zip (map fst ps ++ more) pos ++ kw) = Some (env, [], zip more (drop (length ps) pos) ++ kw') ∧
    (∀ n, n ∈ map fst kw' → n ∈ map fst kw).
Proof.
  intros Hn Hk Hl. unfold bind_args. rewrite bind_pos_zip.
  assert (existsb (λ '(k, _), match assoc k (zip (map fst ps) pos) with Some _ => true | None => false end) kw = false) as ->.
  { apply not_true_is_false. intros Hex%existsb_exists. destruct Hex as ([n v] & Hin & Hx).
    rewrite assoc_zip_None in Hx; [done|]. intros Ht. apply (Hk n).
    - apply elem_of_list_fmap. exists (n, v). split; [done|]. by apply elem_of_list_In.
    - revert Ht. generalize (map fst ps) (length pos). intros l m. rewrite firstn_app. rewrite elem_of_app. by left. }
  eexists _, _. split; [done|]. split.
  - rewrite bind_pos_zip. cbn [zip length drop].
    assert (∀ l : list (name * val), zip (map fst ps) [] = l → l = []) as Hz by (intros l <-; by destruct ps).
    rewrite (Hz _ eq_refl). clear Hz.
    assert (existsb (λ '(k, _), match assoc k (@nil (name * val)) with Some _ => true | None => false end)
              (zip (map fst ps ++ more) pos ++ kw) = false) as ->.
    { apply not_true_is_false. intros Hex%existsb_exists. by destruct Hex as ([n v] & _ & Hx). }
    cbn [app]. rewrite (env_zip kw ps more pos) by done. rewrite drop_nil. f_equal. f_equal.
    rewrite filter_app, filter_zip by done. f_equal.
    clear Hl. induction kw as [|[n v] kw IH]; [done|]. rewrite !filter_cons.
    assert (assoc n ps = None ↔ assoc n (drop (length pos) ps) = None) as Hiff.
    { rewrite <- (take_drop (length pos) ps) at 1. rewrite assoc_app.
      assert (assoc n (take (length pos) ps) = None) as ->; [|done]. apply assoc_None. intros Hin. apply (Hk n); [by left|]. rewrite firstn_app, elem_of_app. left. by rewrite fmap_take in Hin. }
    rewrite IH by (intros; apply Hk; by right).
    repeat case_decide; tauto || done.
  - intros n (x & -> & Hin)%elem_of_list_fmap. apply elem_of_list_filter in Hin as [_ Hin].
    apply elem_of_list_fmap. eauto.
Qed.

Lemma init_chain_positional fuel self cs : ∀ pos kw h, NoDup (params_of cs) → length pos ≤ length (params_of cs) →
  (∀ n, n ∈ map fst kw → n ∉ take (length pos) (params_of cs)) →
  init_chain S fuel cs self pos kw h = init_chain S fuel cs self [] (zip (params_of cs) pos ++ kw) h.
Proof.
  induction cs as [|c cs IH]; intros pos kw h Hn Hl Hk.
  { unfold params_of in Hl. cbn [map concat length] in Hl. by destruct pos; [|cbn [length] in Hl; lia]. }
  unfold params_of in *. cbn [map concat] in *. fold (params_of cs) in *. cbn [init_chain].
  destruct (bind_args_zip (c_params c) (params_of cs) pos kw Hn Hk Hl) as (env & kw' & -> & -> & Hkw').
  apply NoDup_app in Hn as (_ & Hd & Hn). set (pos' := drop _ pos).
  assert (length pos' ≤ length (params_of cs)) as Hl'.
  { unfold pos'. rewrite app_length, map_length in Hl. rewrite drop_length. lia. }
  assert (match pos', kw' with [], [] => true | _, _ => false end =
          match [] : list val, zip (params_of cs) pos' ++ kw' with [], [] => true | _, _ => false end) as Em.
  { destruct pos' as [|a pos']; [by destruct (params_of cs), kw'|].
    destruct (params_of cs); [cbn [length] in Hl'; lia|done]. }
  rewrite <- Em. destruct (negb (c_kw c) && _); [done|]. unfold bind.
  destruct (for_each (c_steps c) (run_step S fuel self env) h) as [[[]|e] h1]; [|done].
  destruct (c_kw c); [|done]. destruct (c_super_ok c); [|done]. apply IH; [done|done|].
  intros n Hin Ht. apply (Hk n); [by apply Hkw'|]. rewrite firstn_app, elem_of_app. right.
  unfold pos' in Ht. by rewrite drop_length, <- (map_length fst (c_params c)) in Ht.
Qed.
Lemma construct_positional fuel ck pos kw h : NoDup (params_of (mro S ck)) → length pos ≤ length (params_of (mro S ck)) →
  (∀ n, n ∈ map fst kw → n ∉ take (length pos) (params_of (mro S ck))) →
  construct S fuel ck pos kw h = construct S fuel ck [] (zip (params_of (mro S ck)) pos ++ kw) h.
Proof.
  intros Hn Hl Hk. unfold construct. destruct (find_cls S ck); [|done]. cbv zeta. unfold bind.
  by rewrite init_chain_positional.
Qed.

Lemma init_chain_overflow fuel self cs : ∀ pos kw h, length (params_of cs) < length pos →
  ∃ e h', init_chain S fuel cs self pos kw h = (inr e, h').
Proof.
  induction cs as [|c cs IH]; intros pos kw h Hl; unfold params_of in Hl; cbn [init_chain map concat] in *.
  - destruct pos; [cbn [length] in Hl; lia|]. by eexists _, _.
  - fold (params_of cs) in Hl. unfold bind_args. rewrite bind_pos_zip. destruct (existsb _ kw); [by eexists _, _|].
    rewrite app_length, map_length in Hl. pose proof (drop_length pos (length (c_params c))) as Hd.
    destruct (drop (length (c_params c)) pos) as [|a pos'] eqn:E; [cbn [length] in Hd; lia|].
    destruct (c_kw c); cbn [negb andb]; [|by eexists _, _].
    unfold bind. match goal with |- context [for_each ?a ?b h] => destruct (for_each a b h) as [[[]|e] h1] end; [|by eexists _, _].
    destruct (c_super_ok c); [|by eexists _, _]. apply IH. rewrite Hd. lia.
Qed.
Lemma construct_overflow fuel ck pos kw h : length (params_of (mro S ck)) < length pos →
  ∃ e h', construct S fuel ck pos kw h = (inr e, h').
Proof.
  intros Hl. unfold construct. destruct (find_cls S ck); [|by eexists _, _]. cbv zeta.
  match goal with |- context [(bind ?m ?k) ?h1] => destruct (init_chain_overflow fuel (VRef (fresh_obj h)) (mro S ck) pos kw h1 Hl) as (e & h' & E) end.
  exists e, h'. by apply bind_inr.
Qed.
Lemma init_chain_twice fuel self cs : ∀ pos kw h n, NoDup (params_of cs) → n ∈ map fst kw →
  n ∈ take (length pos) (params_of cs) → ∃ e h', init_chain S fuel cs self pos kw h = (inr e, h').
Proof.
  induction cs as [|c cs IH]; intros pos kw h n Hn Hin Ht; unfold params_of in Hn, Ht; cbn [init_chain map concat] in *.
  { rewrite take_nil in Ht. by apply elem_of_nil in Ht. }
  fold (params_of cs) in *. apply NoDup_app in Hn as (Hn1 & Hd & Hn2). unfold bind_args. rewrite bind_pos_zip.
  destruct (existsb _ kw) eqn:Ex; [by eexists _, _|].
  match goal with |- context [init_chain _ _ cs self ?x ?y] => set (pos' := x); set (kw' := y) end.
  rewrite firstn_app, map_length, elem_of_app in Ht. destruct Ht as [Ht|Ht].
  - exfalso. apply elem_of_list_fmap in Hin as ([n' v] & -> & Hin). cbn [fst] in Ht.
    assert (existsb (λ '(k, _), match assoc k (zip (map fst (c_params c)) pos) with Some _ => true | None => false end) kw = true) as E; [|congruence].
    apply existsb_exists. exists (n', v). split; [by apply elem_of_list_In|].
    destruct (assoc n' (zip (map fst (c_params c)) pos)) eqn:Ea; [done|]. apply assoc_None in Ea.
    by rewrite map_fst_zip_take in Ea.
  - assert (n ∈ map fst kw') as Hin'.
    { apply elem_of_list_fmap in Hin as ([n' v] & -> & Hin). cbn [fst] in *. apply elem_of_list_fmap. exists (n', v). split; [done|].
      apply elem_of_list_filter. split; [|done]. apply assoc_None. intros Hp.
      apply (Hd n'); [|by apply elem_of_take in Ht as (? & ? & _); eapply elem_of_list_lookup_2].
      revert Hp. rewrite fmap_drop. apply elem_of_drop_sub. }
    assert (n ∈ take (length pos') (params_of cs)) as Ht' by (unfold pos'; by rewrite drop_length).
    destruct (c_kw c); cbn [negb andb].
    + unfold bind. match goal with |- context [for_each ?a ?b h] => destruct (for_each a b h) as [[[]|e] h1] end; [|by eexists _, _].
      destruct (c_super_ok c); [|by eexists _, _]. by eapply IH.
    + destruct kw' as [|x l]; [by apply elem_of_nil in Hin'|]. destruct pos'; by eexists _, _.
Qed.
Lemma construct_twice fuel ck pos kw h n : NoDup (params_of (mro S ck)) → n ∈ map fst kw →
  n ∈ take (length pos) (params_of (mro S ck)) → ∃ e h', construct S fuel ck pos kw h = (inr e, h').
Proof.
  intros Hn Hin Ht. unfold construct. destruct (find_cls S ck); [|by eexists _, _]. cbv zeta.
  match goal with |- context [(bind ?m ?k) ?h1] => destruct (init_chain_twice fuel (VRef (fresh_obj h)) (mro S ck) pos kw h1 n Hn Hin Ht) as (e & h' & E) end.
  exists e, h'. by apply bind_inr.
Qed.
End positional.

(** Every class of every table that has Element among its bases. *)
Definition element_chain_b (cs : list cls) : bool :=
  match reverse cs with
  | e :: pre =>
      forallb c_kw pre && negb (c_kw e) &&
      match c_params e with [(n, _)] => str_eqb n (u "UUID") | _ => false end &&
      match c_steps e with [SAttr n] => str_eqb n (u "UUID") | _ => false end
  | [] => false
  end.
Lemma element_chain_ok cs : element_chain_b cs = true → ends_in_element cs.
Proof.
  unfold element_chain_b. destruct (reverse cs) as [|e pre] eqn:E; [done|].
  rewrite !andb_true_iff. intros [[[Hf Hk] Hp] Hs].
  exists (reverse pre), e. destruct (c_params e) as [|[n d] [|]] eqn:Ep; try done. exists d.
  split_and!.
  - rewrite <- (reverse_involutive cs), E, reverse_cons. done.
  - apply Forall_forall. intros c Hc. rewrite elem_of_reverse in Hc. exact (all_rows_ok _ _ _ Hf Hc).
  - by destruct (c_kw e).
  - by apply str_eqb_eq in Hp as ->.
  - destruct (c_steps e) as [|[a| | | | |] [|]]; try done. by apply str_eqb_eq in Hs as ->.
Qed.
Definition has_element (cs : list cls) : bool := existsb (λ c, str_eqb (c_name c) (u "Element")) cs.
Definition element_all (t : schema) (pm : list (name * name)) : bool :=
  let m := cmap t in
  let n := length t in
  forallb (λ c, let cs := mro_map n m (c_key c) in
                negb (has_element cs) || element_chain_b cs && match lookup_in cs (u "UUID") with None => true | Some _ => false end) t.
Lemma element_all_true : all_tables element_all = true.
Proof. vm_compute. reflexivity. Qed.
Lemma element_one t pm k c : (t, pm) ∈ tables → find_cls t k = Some c → has_element (mro t k) = true →
  ends_in_element (mro t k) ∧ lookup_prop t k (u "UUID") = None.
Proof.
  intros Ht Hc He. pose proof (all_tables_ok _ _ _ element_all_true Ht) as Hb. unfold element_all in Hb. cbv zeta in Hb.
  destruct (find_cls_in _ _ _ Hc) as [Hin Hk]. apply (all_rows_ok _ _ _ Hb) in Hin. rewrite Hk, mro_map_mro in Hin.
  rewrite He in Hin. cbn [negb orb] in Hin. apply andb_true_iff in Hin as [H1 H2]. split; [by apply element_chain_ok|].
  unfold lookup_prop. by destruct (lookup_in (mro t k) (u "UUID")).
Qed.
Lemma has_element_ok cs : is_element cs → has_element cs = true.
Proof.
  intros (c & Hc & Hn). apply existsb_exists. exists c. rewrite Hn, str_eqb_refl. split; [|done]. by apply elem_of_list_In.
Qed.

(** Parameter names along the base classes. *)
Fixpoint nodup_names (l : list name) : bool :=
  match l with [] => true | x :: r => negb (existsb (str_eqb x) r) && nodup_names r end.
Lemma nodup_names_ok l : nodup_names l = true ↔ NoDup l.
Proof.
  induction l as [|x r IH]; cbn [nodup_names]; [split; [constructor|done]|].
  rewrite andb_true_iff, IH, NoDup_cons, negb_true_iff. rewrite <- existsb_str. destruct (existsb (str_eqb x) r); intuition congruence.
Qed.
Definition names_in (R : list name) (t : schema) : bool :=
  let m := cmap t in
  let n := length t in
  forallb (λ c, existsb (str_eqb (c_key c)) R || nodup_names (params_of (mro_map n m (c_key c)))) t.
Lemma names_in_ok R t k c : names_in R t = true → find_cls t k = Some c → k ∉ R → NoDup (params_of (mro t k)).
Proof.
  intros Hb Hc Hr. unfold names_in in Hb. cbv zeta in Hb.
  destruct (find_cls_in _ _ _ Hc) as [Hin Hk]. apply (all_rows_ok _ _ _ Hb) in Hin. rewrite Hk, mro_map_mro in Hin.
  apply orb_true_iff in Hin as [Hin%existsb_str|Hin]; [done|]. by apply nodup_names_ok.
Qed.
Definition names_all (t : schema) (pm : list (name * name)) : bool := names_in repeats t.
Lemma names_all_true : all_tables names_all = true.
Proof. vm_compute. reflexivity. Qed.
Lemma names_one t pm k c : (t, pm) ∈ tables → find_cls t k = Some c → k ∉ repeats → NoDup (params_of (mro t k)).
Proof. intros Ht. exact (names_in_ok repeats t k c (all_tables_ok _ _ _ names_all_true Ht)). Qed.
Definition repeat_in (R : list name) (t : schema) : bool :=
  let m := cmap t in
  let n := length t in
  forallb (λ k, negb (nodup_names (params_of (mro_map n m k)))) R.
Lemma repeat_in_ok R t k : repeat_in R t = true → k ∈ R → ¬ NoDup (params_of (mro t k)).
Proof.
  intros Hb Hk. unfold repeat_in in Hb. cbv zeta in Hb. apply (all_rows_ok _ _ _ Hb) in Hk. rewrite mro_map_mro in Hk.
  rewrite <- nodup_names_ok. by destruct (nodup_names _).
Qed.
Lemma repeat_true : repeat_in repeats cim15 = true.
Proof. vm_compute. reflexivity. Qed.
Lemma repeats_do k : k ∈ repeats → ¬ NoDup (params_of (mro cim15 k)).
Proof. exact (repeat_in_ok repeats cim15 k repeat_true). Qed.
