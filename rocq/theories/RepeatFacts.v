(** A collection argument that two constructors of the same object take. *)
From Coq Require Import String.
From stdpp Require Import prelude gmap.
From Verif Require Import PyStr PyHeap Schema Assoc AssocSpec HeapFacts AssocFacts CtorFacts HistorySpec HistoryFacts
  TableFacts BlankFacts TabCIM15 ArgSpec ArgFacts.

Definition step_names (s : step) : list name :=
  match s with
  | SAttr p | SOne p | SMany p | SPlainMany p | SPriv p => [p]
  | SImpedance => [u "SequenceImpedance"; u "PhaseImpedance"; u "PerLengthImpedance"]
  end.
Lemma blank_step_env kind env env' s : (∀ p, p ∈ step_names s → env_get env p = env_get env' p) →
  blank_step kind env s = blank_step kind env' s.
Proof.
  intros He. destruct s as [p|p|p|p|p|]; cbn [blank_step step_names] in *.
  1-5: by rewrite (He p) by left.
  rewrite !He by (repeat (left || right)). done.
Qed.
Lemma blank_steps_env kind env env' ss : (∀ s p, s ∈ ss → p ∈ step_names s → env_get env p = env_get env' p) →
  blank_steps kind env ss = blank_steps kind env' ss.
Proof.
  induction ss as [|s ss IH]; intros He; cbn [blank_steps]; [done|].
  rewrite (blank_step_env kind env env') by (intros; eapply He; [left|done]).
  by rewrite IH by (intros; eapply He; [by right|done]).
Qed.

(** The constructor statements before and after [self.n = ...]. *)
Fixpoint split_many (n : name) (ss : list step) : option (list step * list step) :=
  match ss with
  | [] => None
  | s :: r =>
      match s with
      | SMany p => if str_eqb p n then Some ([], r) else '(a, b) ← split_many n r; Some (s :: a, b)
      | _ => '(a, b) ← split_many n r; Some (s :: a, b)
      end
  end.
Lemma split_many_ok n ss : ∀ a b, split_many n ss = Some (a, b) → ss = a ++ SMany n :: b.
Proof.
  induction ss as [|s ss IH]; intros a b; cbn [split_many]; [done|].
  destruct (split_many n ss) as [[a' b']|]; cbn [mbind option_bind].
  - destruct s; try (by intros [= <- <-]; cbn [app]; f_equal; apply IH).
    destruct (str_eqb p n) eqn:E.
    + intros [= <- <-]. by apply str_eqb_eq in E as ->.
    + intros [= <- <-]. cbn [app]. f_equal. by apply IH.
  - destruct s; try done. destruct (str_eqb p n) eqn:E; [|done]. intros [= <- <-]. by apply str_eqb_eq in E as ->.
Qed.

Definition clear_of (n : name) (ss : list step) : bool := forallb (λ s, negb (existsb (str_eqb n) (step_names s))) ss.
Lemma clear_of_ok n ss s : clear_of n ss = true → s ∈ ss → n ∉ step_names s.
Proof.
  intros Hc Hin Hn. apply (all_rows_ok _ _ _ Hc) in Hin. apply existsb_str in Hn. by rewrite Hn in Hin.
Qed.
Definition is_some_b {A} (x : option A) : bool := match x with Some _ => true | None => false end.

(** The argument [n] is taken by one class of [cs], whose base classes
    initialise the collection again. *)
Fixpoint lost_b (kind : name → option prop) (cs : list cls) (n : name) : bool :=
  match cs with
  | [] => false
  | c :: r =>
      c_kw c && c_super_ok c &&
      match assoc n (c_params c) with
      | Some _ =>
          match split_many n (c_steps c) with
          | Some (a, b) =>
              clear_of n a && clear_of n b &&
              is_some_b (blank_steps kind (c_params c) a) && is_some_b (blank_steps kind (c_params c) b) &&
              match blank_chain kind r [] [] with
              | Some ws => match write_map ws !! Priv n with Some BNil => true | _ => false end
              | None => false
              end
          | None => false
          end
      | None => is_some_b (blank_steps kind (c_params c) (c_steps c)) && lost_b kind r n
      end
  end.

Lemma last_write_map_any k ws b d : write_map ws !! k = Some b → last_write k ws d = Some (bov b).
Proof.
  unfold write_map. revert d. induction ws as [|[k' c] ws IH] using rev_ind; intros d; [done|].
  rewrite reverse_app, last_write_app. simpl. case_decide as Hk.
  - subst. rewrite lookup_insert. naive_solver.
  - rewrite lookup_insert_ne by done. apply IH.
Qed.

(** Binding a single keyword. *)
Lemma bind_one_not ps n v : assoc n ps = None → bind_args ps [] [(n, v)] = Some (ps, [], [(n, v)]).
Proof.
  intros Ha. pose proof (bind_args_untaken ps [] [] [(n, v)]) as H. cbn [app] in H.
  rewrite H; [|intros m w [[= -> ->]|[]%elem_of_nil]%elem_of_cons; by apply assoc_None].
  unfold bind_args. assert (bind_pos ps [] = ([], ps, [])) as -> by (by destruct ps as [|[]]). cbn [existsb app].
  rewrite filter_nil. cbn [app]. f_equal. f_equal. f_equal.
  clear. induction ps as [|[p d] ps IH]; [done|]. cbn [map]. by rewrite IH.
Qed.
Lemma bind_one ps n v : assoc n ps ≠ None → ∃ env, bind_args ps [] [(n, v)] = Some (env, [], []) ∧
  env_get env n = v ∧ ∀ p, p ≠ n → env_get env p = env_get ps p.
Proof.
  intros Ha. unfold bind_args. assert (bind_pos ps [] = ([], ps, [])) as -> by (by destruct ps as [|[]]).
  cbn [existsb assoc orb app]. eexists. split; [|split].
  - f_equal. f_equal. rewrite filter_cons, decide_False by done. by rewrite filter_nil.
  - unfold env_get. induction ps as [|[p d] ps IH]; [done|]. cbn [map assoc] in *.
    destruct (str_eqb p n) eqn:E.
    + apply str_eqb_eq in E as ->. rewrite str_eqb_refl. done.
    + assert (str_eqb n p = false) as E2.
      { apply str_eqb_neq. apply str_eqb_neq in E. congruence. }
      rewrite E2 in *. by apply IH.
  - intros m Hm. unfold env_get. clear Ha. induction ps as [|[p d] ps IH]; [done|]. cbn [map assoc].
    destruct (str_eqb m p) eqn:E; [|done]. apply str_eqb_eq in E as <-.
    rewrite (proj2 (str_eqb_neq m n)) by done. done.
Qed.

Ltac step1 E := rewrite (bind_inl _ _ _ _ _ E).
Section lost.
Context (S : schema).

Definition member_ready (h : heap) (o : nat) (k : prop) (y : nat) : Prop :=
  is_Some (cls_of h y) ∧ ∀ p, k = PManyMany p → ∃ xs, view h y (Priv p) = Some (OL xs) ∧ VRef o ∉ xs.
(** [self._n = []; self.n = [ys]] on the new object [o]. *)
Lemma many_step_run f h o ck n k env l ys :
  Wf h → cls_of h o = Some ck → lookup_prop S ck n = Some k → is_Some (inverse_of k) → env_get env n = VList l →
  h_lists h !! l = Some (map VRef ys) → loose h l → NoDup ys → (∀ y, y ∈ ys → member_ready h o k y ∧ y ≠ o) →
  ∃ h', run_step S (Datatypes.S f) (VRef o) env (SMany n) h = (inl tt, h') ∧ Frame_but l h h' ∧
    Referred (view h) (view h') o k ys.
Proof.
  intros Hwf Hc Hk [p Hp] Henv Hl Hlo Hnd Hys. cbn [run_step].
  destruct (hnew_facts h o (Priv n) ck Hwf Hc) as (HF1 & HV1 & l1 & Hs1 & Hl1).
  set (h1 := hnew o (Priv n) [] h) in *. pose proof (Frame_wf _ _ HF1) as Hwf1.
  assert (cls_of h1 o = Some ck) as Hc1 by (by rewrite (Frame_cls h)).
  assert (h_lists h1 !! l = Some (map VRef ys) ∧ loose h1 l) as [Hl1' Hlo1].
  { destruct HF1 as (_ & _ & HK). by apply HK. }
  assert (∃ h2, setattr S (Datatypes.S f) (VRef o) n (VList l) h1 = (inl tt, hset o (Priv n) (VList l) h2) ∧ Frame h1 h2 ∧
     (∀ y, k = PManyOne p → y ∈ ys → view h2 y (Priv p) = Some (OV (VRef o))) ∧
     (∀ y xs, k = PManyMany p → y ∈ ys → view h1 y (Priv p) = Some (OL xs) → view h2 y (Priv p) = Some (OL (xs ++ [VRef o]))) ∧
     (∀ o' k', (k' = Priv p → o' ∉ ys) → view h2 o' k' = view h1 o' k')) as (h2 & E2 & HF2 & Hm1 & Hm2 & Hfr).
  { cbn [setattr]. assert (obj_prop S h1 o n = Some k) as -> by (unfold obj_prop; by rewrite Hc1).
    destruct k as [?|p'|?|p'| |?|? ?]; try done; cbn [inverse_of] in Hp; injection Hp as ->.
    - destruct (assign_all p o ys h1 Hwf1) as (h2 & E2 & HF2 & HV2).
      { intros y Hy. rewrite (Frame_cls h) by done. by apply Hys. }
      exists h2. split_and!.
      + step1 (read_key_ok h1 o (Priv n) _ Hs1).
        erewrite (bind_inl (iter_val (VList l1))); [|unfold iter_val; by rewrite Hl1].
        erewrite (bind_inl (for_each _ _)); [|done].
        erewrite (bind_inl (iter_val (VList l))); [|unfold iter_val; by rewrite Hl1'].
        step1 E2. rewrite write_key_ok; [done|]. rewrite (Frame_cls h1) by done. eauto.
      + done.
      + intros y _ Hy. by rewrite HV2, decide_True.
      + done.
      + intros o' k' Hn. rewrite HV2, decide_False; [done|]. naive_solver.
    - destruct (append_each o p ys h1 Hwf1 Hnd) as (h2 & E2 & HF2 & Hm & Hfr).
      { intros y Hy. destruct (Hys y Hy) as [[_ Hr] Hne]. destruct (Hr p eq_refl) as (xs & Hx & Hn). exists xs. split; [|done].
        rewrite HV1, upd_ne; [done|]. congruence. }
      exists h2. split_and!.
      + step1 (read_key_ok h1 o (Priv n) _ Hs1).
        erewrite (bind_inl (iter_val (VList l1))); [|unfold iter_val; by rewrite Hl1].
        erewrite (bind_inl (for_each _ _)); [|done].
        step1 (eq_trans (live_append_same _ _ _ _ _ Hlo1 Hl1') E2). rewrite write_key_ok; [done|]. rewrite (Frame_cls h1) by done. eauto.
      + done.
      + done.
      + intros y xs _. by apply Hm.
      + done. }
  assert (h_lists h2 !! l = Some (map VRef ys) ∧ loose h2 l) as [Hl2 Hlo2].
  { destruct HF2 as (_ & _ & HK). by apply HK. }
  assert (is_Some (cls_of h2 o)) as Hc2 by (rewrite (Frame_cls h1) by done; eauto).
  assert (∀ o' k', view (hset o (Priv n) (VList l) h2) o' k' = upd (view h2) o (Priv n) (OL (map VRef ys)) o' k') as HV3.
  { intros. by erewrite view_hset_list. }
  exists (hset o (Priv n) (VList l) h2). split_and!.
  - rewrite Henv. rewrite (decide_False (P := VList l = VNone)) by done.
    erewrite bind_inl; [|done]. erewrite (bind_inl (write_key _ _ _)); [exact E2|].
    unfold h1, hnew. apply write_key_ok. rewrite cls_lset. eauto.
  - pose proof (Frame_wf _ _ HF2). eapply Frame_Frame_but; [exact (Frame_trans _ _ _ HF1 HF2)|by eapply Frame_but_hset].
  - assert (∀ y, y ∈ ys → y ≠ o) as Hyo by (intros; by apply Hys). split.
    + intros p' y -> Hy. cbn [inverse_of] in Hp. injection Hp as ->. rewrite HV3, upd_ne by (pose proof (Hyo y Hy); congruence).
      by apply Hm1.
    + intros p' y xs -> Hy Hx. cbn [inverse_of] in Hp. injection Hp as ->. pose proof (Hyo y Hy).
      rewrite HV3, upd_ne by congruence. apply Hm2; [done..|]. rewrite HV1, upd_ne by congruence. done.
    + intros o' k' p' Hne Hp' Hn. rewrite Hp in Hp'. injection Hp' as <-.
      rewrite HV3, upd_ne by congruence. rewrite Hfr by naive_solver. rewrite HV1, upd_ne by congruence. done.
Qed.

Lemma for_each_app {A} (xs ys : list A) body h h1 : for_each xs body h = (inl tt, h1) →
  for_each (xs ++ ys) body h = for_each ys body h1.
Proof.
  revert h. induction xs as [|x xs IH]; intros h; cbn [for_each app].
  - unfold ret. by intros [= ->].
  - intros ([] & h2 & E1 & E2)%bind_inv. erewrite bind_inl by done. by apply IH.
Qed.

Lemma Referred_pre V0 V V' o k ys : (∀ o' k', o' ≠ o → V o' k' = V0 o' k') → (∀ y, y ∈ ys → y ≠ o) →
  Referred V V' o k ys → Referred V0 V' o k ys.
Proof.
  intros HV Hyo [H1 H2 H3]. split; [done| |].
  - intros p y xs Hk Hy Hx. apply H2; [done..|]. rewrite HV; [done|by apply Hyo].
  - intros o' k' p Hne Hp Hn. rewrite <- HV by done. by eapply H3.
Qed.
Lemma Referred_post V V' V2 o k ys : (∀ o' k', o' ≠ o → V2 o' k' = V' o' k') → (∀ y, y ∈ ys → y ≠ o) →
  Referred V V' o k ys → Referred V V2 o k ys.
Proof.
  intros HV Hyo [H1 H2 H3]. split.
  - intros p y Hk Hy. rewrite HV by (by apply Hyo). by apply H1.
  - intros p y xs Hk Hy Hx. rewrite HV by (by apply Hyo). by eapply H2.
  - intros o' k' p Hne Hp Hn. rewrite HV by done. by eapply H3.
Qed.

Lemma lost_run f o ck n k cs : lookup_prop S ck n = Some k → is_Some (inverse_of k) → ∀ h l ys,
  lost_b (lookup_prop S ck) cs n = true → Wf h → cls_of h o = Some ck →
  h_lists h !! l = Some (map VRef ys) → loose h l → NoDup ys → (∀ y, y ∈ ys → member_ready h o k y ∧ y ≠ o) →
  ∃ h', init_chain S (Datatypes.S f) cs (VRef o) [] [(n, VList l)] h = (inl tt, h') ∧ Wf h' ∧ same_classes h h' ∧
    Referred (view h) (view h') o k ys ∧ view h' o (Priv n) = Some (OL []).
Proof.
  intros Hk Hinv. induction cs as [|c cs IH]; intros h l ys Hb Hwf Hc Hl Hlo Hnd Hys; cbn [lost_b init_chain] in *; [done|].
  assert (∀ y, y ∈ ys → y ≠ o) as Hyo by (intros; by apply Hys).
  assert (∀ h1 ws, Frame h h1 → (∀ o' k', view h1 o' k' = apply_writes o ws (view h) o' k') →
    cls_of h1 o = Some ck ∧ h_lists h1 !! l = Some (map VRef ys) ∧ loose h1 l ∧ (∀ y, y ∈ ys → member_ready h1 o k y ∧ y ≠ o) ∧
    (∀ o' k', o' ≠ o → view h1 o' k' = view h o' k')) as Hstep.
  { intros h1 ws HF HV. assert (∀ o' k', o' ≠ o → view h1 o' k' = view h o' k') as HV' by (intros; by rewrite HV, apply_writes_ne).
    split_and!; [by rewrite (Frame_cls h)|by apply HF|by eapply HF| |done].
    intros y Hy. destruct (Hys y Hy) as [[Hcy Hr] Hne]. split; [split|done].
    - by rewrite (Frame_cls h).
    - intros p Hp. destruct (Hr p Hp) as (xs & Hx & Hn). exists xs. by rewrite HV'. }
  apply andb_true_iff in Hb as [[Hkw Hsup]%andb_true_iff Hb]. rewrite Hkw, Hsup. cbn [negb andb].
  destruct (assoc n (c_params c)) as [d|] eqn:Ea.
  - destruct (split_many n (c_steps c)) as [[a b]|] eqn:Es; [|done]. apply split_many_ok in Es.
    apply andb_true_iff in Hb as [Hb Hws]. apply andb_true_iff in Hb as [Hb Hbb]. apply andb_true_iff in Hb as [Hb Hba].
    apply andb_true_iff in Hb as [Hca Hcb].
    destruct (bind_one (c_params c) n (VList l)) as (env & -> & Hen & Heo); [by rewrite Ea|].
    assert (∀ ss, clear_of n ss = true → blank_steps (lookup_prop S ck) env ss = blank_steps (lookup_prop S ck) (c_params c) ss) as Heq.
    { intros ss Hss. apply blank_steps_env. intros s p Hs Hp. apply Heo. intros ->. by eapply clear_of_ok. }
    rewrite <- Heq in Hba, Hbb by done.
    destruct (blank_steps _ env a) as [wa|] eqn:Ewa; [|done]. destruct (blank_steps _ env b) as [wb|] eqn:Ewb; [|done].
    destruct (blank_chain _ cs [] []) as [ws|] eqn:Ews; [|done].
    destruct (blank_steps_run S f o ck env a h wa) as (h1 & E1 & HF1 & HV1); [done..|].
    destruct (Hstep h1 wa HF1 HV1) as (Hc1 & Hl1 & Hlo1 & Hys1 & HV1').
    destruct (many_step_run f h1 o ck n k env l ys) as (h2 & E2 & (Hwf2 & Hsc2 & _) & HR2); [by eapply Frame_wf|done..|].
    assert (cls_of h2 o = Some ck) as Hc2 by (by rewrite Hsc2).
    destruct (blank_steps_run S f o ck env b h2 wb) as (h3 & E3 & HF3 & HV3); [done..|].
    assert (cls_of h3 o = Some ck) as Hc3 by (by rewrite (Frame_cls h2)).
    destruct (blank_chain_run S f o ck cs h3 [] [] ws) as (h4 & E4 & HF4 & HV4); [by eapply Frame_wf|done..|].
    exists h4. split_and!.
    + erewrite bind_inl; [exact E4|]. rewrite Es. erewrite for_each_app by done. cbn [for_each].
      erewrite bind_inl by done. done.
    + by eapply Frame_wf.
    + intros o'. rewrite (Frame_cls h3) by done. rewrite (Frame_cls h2) by done. rewrite Hsc2. by rewrite (Frame_cls h).
    + eapply (Referred_pre _ (view h1)); [done..|]. eapply (Referred_post _ (view h2)); [|done..].
      intros o' k' Hne. rewrite HV4, apply_writes_ne by done. by rewrite HV3, apply_writes_ne.
    + rewrite HV4, apply_writes_self. destruct (write_map ws !! Priv n) as [[|]|] eqn:Ew; try done.
      by rewrite (last_write_map_any _ _ _ _ Ew).
  - apply andb_true_iff in Hb as [Hba Hb]. rewrite (bind_one_not _ n (VList l) Ea).
    destruct (blank_steps (lookup_prop S ck) (c_params c) (c_steps c)) as [wa|] eqn:Ewa; [|done].
    destruct (blank_steps_run S f o ck (c_params c) (c_steps c) h wa) as (h1 & E1 & HF1 & HV1); [done..|].
    destruct (Hstep h1 wa HF1 HV1) as (Hc1 & Hl1 & Hlo1 & Hys1 & HV1').
    destruct (IH h1 l ys Hb) as (h2 & E2 & Hwf2 & Hsc2 & HR2 & Hn2); [by eapply Frame_wf|done..|].
    exists h2. split_and!; [by erewrite bind_inl|done| | |done].
    + intros o'. rewrite Hsc2. by rewrite (Frame_cls h).
    + by eapply Referred_pre.
Qed.

Lemma lost_construct f h ck n k c l ys :
  find_cls S ck = Some c → lookup_prop S ck n = Some k → is_Some (inverse_of k) →
  lost_b (lookup_prop S ck) (mro S ck) n = true → Wf h →
  h_lists h !! l = Some (map VRef ys) → loose h l → NoDup ys → (∀ y, y ∈ ys → member_ready h (fresh_obj h) k y) →
  ∃ o h', construct S (Datatypes.S f) ck [] [(n, VList l)] h = (inl (VRef o), h') ∧ cls_of h o = None ∧ cls_of h' o = Some ck ∧
    (∀ o', o' ≠ o → cls_of h' o' = cls_of h o') ∧
    Referred (view h) (view h') o k ys ∧ view h' o (Priv n) = Some (OL []).
Proof.
  intros Hf Hk Hi Hb Hwf Hl Hlo Hnd Hys. unfold construct. rewrite Hf. set (o := fresh_obj h).
  destruct (halloc_facts h o ck) as (Hwf1 & Hc1 & Hk1 & HV1); [done|apply fresh_obj_cls|].
  fold (halloc o ck h). set (h1 := halloc o ck h) in *.
  destruct (Hk1 l _ Hl Hlo) as [Hl1 Hlo1].
  destruct (lost_run f o ck n k (mro S ck) Hk Hi h1 l ys) as (h2 & E2 & Hwf2 & Hsc2 & HR2 & Hn2); try done.
  { by rewrite Hc1, decide_True. }
  { intros y Hy. destruct (Hys y Hy) as [[cy Hcy] Hr].
    assert (y ≠ o) as Hne by (intros ->; unfold o in Hcy; by rewrite fresh_obj_cls in Hcy).
    split; [split|done].
    - rewrite Hc1, decide_False by done. eauto.
    - intros p Hp. rewrite HV1. by apply Hr. }
  exists o, h2. split_and!.
  - by erewrite bind_inl.
  - apply fresh_obj_cls.
  - by rewrite Hsc2, Hc1, decide_True.
  - intros o' Hne. by rewrite Hsc2, Hc1, decide_False.
  - eapply (Referred_pre _ (view h1)); [intros; apply HV1| |done].
    intros y Hy ->. destruct (Hys _ Hy) as [[cy Hcy] _]. unfold o in Hcy. by rewrite fresh_obj_cls in Hcy.
  - done.
Qed.
End lost.

(** The eight classes. *)
Definition lost_in (R : list (name * name)) (t : schema) : bool :=
  let m := cmap t in
  let len := length t in
  forallb (λ '(k, n),
    let cs := mro_map len m k in
    is_some_b (m !! k) && lost_b (lookup_in cs) cs n &&
    match lookup_in cs n with Some p => is_some_b (inverse_of p) | None => false end) R.
Lemma lost_in_ok R t k n : lost_in R t = true → (k, n) ∈ R →
  ∃ c p, find_cls t k = Some c ∧ lookup_prop t k n = Some p ∧ is_Some (inverse_of p) ∧
    lost_b (lookup_prop t k) (mro t k) n = true.
Proof.
  intros Hb Hk. unfold lost_in in Hb. cbv zeta in Hb. apply (all_rows_ok _ _ _ Hb) in Hk.
  cbv beta iota in Hk. rewrite mro_map_mro, cmap_find in Hk. change (lookup_in (mro t k)) with (lookup_prop t k) in Hk.
  apply andb_true_iff in Hk as [[H1 H2]%andb_true_iff H3].
  destruct (find_cls t k) as [c|]; [|done]. destruct (lookup_prop t k n) as [p|]; [|done].
  exists c, p. split_and!; [done..| |done]. destruct (inverse_of p) as [q|]; [by exists q|done].
Qed.
Lemma lost_true : lost_in repeated cim15 = true.
Proof. vm_compute. reflexivity. Qed.

Lemma lost_gen R t f h k n l ys : lost_in R t = true → (k, n) ∈ R → Wf h →
  h_lists h !! l = Some (map VRef ys) → loose h l → NoDup ys →
  (∀ p y, lookup_prop t k n = Some p → y ∈ ys → ready h p y) →
  ∃ p o h', lookup_prop t k n = Some p ∧ is_Some (inverse_of p) ∧
    construct t (Datatypes.S f) k [] [(n, VList l)] h = (inl (VRef o), h') ∧ cls_of h o = None ∧ cls_of h' o = Some k ∧
    (∀ o', o' ≠ o → cls_of h' o' = cls_of h o') ∧
    Referred (view h) (view h') o p ys ∧ view h' o (Priv n) = Some (OL []).
Proof.
  intros Hb Hk Hwf Hl Hlo Hnd Hys. destruct (lost_in_ok R t k n Hb Hk) as (c & p & Hc & Hp & Hi & Hlost).
  destruct (lost_construct t f h k n p c l ys) as (o & h' & H); [done..| |].
  { intros y Hy. destruct (Hys p y Hp Hy) as [Hcy Hr]. split; [done|]. intros q Hq.
    destruct (Hr q Hq) as (xs & Hx & Hlive). exists xs. split; [done|]. intros [cx Hcx]%Hlive.
    by rewrite fresh_obj_cls in Hcx. }
  exists p, o, h'. split; [done|]. by split.
Qed.
