(** Constructors called without references: the slots they write, computed
    from the class table, and the heap they leave. *)
From Coq Require Import String.
From stdpp Require Import prelude gmap.
From Verif Require Import PyStr PyHeap Schema Assoc AssocSpec HeapFacts LinksFacts AssocFacts.

(** A slot content written by such a constructor. *)
Inductive bval := BV (v : val) | BNil.
Definition bov (b : bval) : ov := match b with BV v => OV v | BNil => OL [] end.

Definition is_pub (p : name) : bool := match key_of p with Pub _ => true | _ => false end.

Definition blank_step (kind : name → option prop) (env : list (name * val)) (s : step)
    : option (list (key * bval)) :=
  match s with
  | SAttr p =>
      match kind p with
      | None => if is_pub p && negb (is_vlist (env_get env p)) then Some [(Pub p, BV (env_get env p))] else None
      | _ => None
      end
  | SOne p =>
      match kind p, env_get env p with
      | Some (POneMany _), VNone | Some (POneOne _), VNone | Some PPrivate, VNone => Some [(Priv p, BV VNone)]
      | _, _ => None
      end
  | SMany p =>
      match kind p, env_get env p with
      | Some (PManyOne _), VNone | Some (PManyMany _), VNone | Some (PManyOneDbl _), VNone => Some [(Priv p, BNil)]
      | _, _ => None
      end
  | SPlainMany p =>
      match kind p, env_get env p with
      | None, VNone => if is_pub p then Some [(Pub p, BNil)] else None
      | _, _ => None
      end
  | SPriv p =>
      match kind p, env_get env p with
      | Some PPrivate, VNone => Some [(Priv p, BV VNone)]
      | _, _ => None
      end
  | SImpedance =>
      match env_get env (u "SequenceImpedance"), env_get env (u "PhaseImpedance"), env_get env (u "PerLengthImpedance"),
            kind (u "SequenceImpedance"), kind (u "PhaseImpedance"), kind (u "PerLengthImpedance") with
      | VNone, VNone, VNone, Some (PAlias _ _), Some (PAlias _ _), Some (POneMany _) =>
          Some [(Priv (u "SequenceImpedance"), BV VNone); (Priv (u "PhaseImpedance"), BV VNone);
                (Priv (u "PerLengthImpedance"), BV VNone)]
      | _, _, _, _, _, _ => None
      end
  end.

Fixpoint blank_steps (kind : name → option prop) (env : list (name * val)) (ss : list step)
    : option (list (key * bval)) :=
  match ss with
  | [] => Some []
  | s :: r => a ← blank_step kind env s; b ← blank_steps kind env r; Some (a ++ b)
  end.

Fixpoint blank_chain (kind : name → option prop) (cs : list cls) (pos : list val) (kw : list (name * val))
    : option (list (key * bval)) :=
  match cs with
  | [] => match pos, kw with [], [] => Some [] | _, _ => None end
  | c :: r =>
      match bind_args (c_params c) pos kw with
      | None => None
      | Some (env, pos', kw') =>
          if negb (c_kw c) && negb (match pos', kw' with [], [] => true | _, _ => false end) then None
          else
            a ← blank_steps kind env (c_steps c);
            if c_kw c then
              if c_super_ok c then b ← blank_chain kind r pos' kw'; Some (a ++ b) else None
            else Some a
      end
  end.

(** What the constructor call [ck(pos..., kw...)] writes; [None] if it raises
    or sets references. *)
Definition blank_new (S : schema) (ck : name) (pos : list val) (kw : list (name * val))
    : option (list (key * bval)) :=
  match find_cls S ck with
  | None => None
  | Some _ => blank_chain (lookup_prop S ck) (mro S ck) pos kw
  end.

Fixpoint apply_writes (o : nat) (ws : list (key * bval)) (V : nat → key → option ov) : nat → key → option ov :=
  match ws with
  | [] => V
  | (k, b) :: r => apply_writes o r (upd V o k (bov b))
  end.

Lemma apply_writes_app o a b V o' k' :
  apply_writes o (a ++ b) V o' k' = apply_writes o b (apply_writes o a V) o' k'.
Proof. revert V. induction a as [|[k c] a IH]; intros V; [done|]. apply IH. Qed.
Lemma apply_writes_ext o ws : ∀ V V' o' k',
  (∀ o k, V o k = V' o k) → apply_writes o ws V o' k' = apply_writes o ws V' o' k'.
Proof.
  induction ws as [|[k c] a IH]; intros V V' o' k' HV; [apply HV|]. simpl. apply IH.
  intros. apply upd_ext. intros _. apply HV.
Qed.
Lemma apply_writes_ne o ws : ∀ V o' k', o' ≠ o → apply_writes o ws V o' k' = V o' k'.
Proof.
  induction ws as [|[k c] a IH]; intros V o' k' Hne; [done|]. simpl. rewrite IH by done.
  rewrite upd_ne by congruence. done.
Qed.

(** The last write to each slot wins. *)
Fixpoint last_write (k : key) (ws : list (key * bval)) (d : option ov) : option ov :=
  match ws with
  | [] => d
  | (k', b) :: r => last_write k r (if decide (k = k') then Some (bov b) else d)
  end.
Lemma apply_writes_self o ws : ∀ V k, apply_writes o ws V o k = last_write k ws (V o k).
Proof.
  induction ws as [|[k' c] a IH]; intros V k; [done|]. simpl. rewrite IH. f_equal.
  unfold upd. repeat case_decide; naive_solver.
Qed.

Section ctor.
Context (S : schema).

Lemma key_of_pub p : is_pub p = true → key_of p = Pub p.
Proof. unfold is_pub, key_of. repeat case_match; done. Qed.

(** [self.p = []] on an empty collection. *)
Lemma set_coll_nil f h o p ck pr l :
  cls_of h o = Some ck → lookup_prop S ck p = Some pr →
  (match pr with PManyOne _ | PManyMany _ | PManyOneDbl _ => true | _ => false end) = true →
  slot h o (Priv p) = Some (VList l) → h_lists h !! l = Some [] →
  (let* l2 := new_list [] in setattr S (Datatypes.S f) (VRef o) p l2) h = (inl tt, hnew o (Priv p) [] h).
Proof.
  intros Hc Hp Hpr Hs Hl. erewrite bind_inl; [|done]. cbn [setattr].
  assert (obj_prop S (lset (fresh_list h) [] h) o p = Some pr) as ->.
  { unfold obj_prop. rewrite cls_lset, Hc. done. }
  assert (fresh_list h ≠ l) as Hne by (intros <-; by rewrite fresh_list_None in Hl).
  assert (iter_val (VList l) (lset (fresh_list h) [] h) = (inl [], lset (fresh_list h) [] h)) as E1.
  { unfold iter_val. by rewrite lists_lset_ne, Hl. }
  assert (iter_val (VList (fresh_list h)) (lset (fresh_list h) [] h) = (inl [], lset (fresh_list h) [] h)) as E2.
  { unfold iter_val. by rewrite lists_lset. }
  assert (∀ body, live_each (VList (fresh_list h)) body (lset (fresh_list h) [] h) = (inl tt, lset (fresh_list h) [] h)) as E4.
  { intros body. unfold live_each. rewrite lists_lset. cbn [length live_from]. by rewrite lists_lset. }
  assert (write_key (VRef o) (Priv p) (VList (fresh_list h)) (lset (fresh_list h) [] h) =
     (inl tt, hnew o (Priv p) [] h)) as E3.
  { unfold hnew. apply write_key_ok. rewrite cls_lset, Hc. eauto. }
  destruct pr; try done;
    (erewrite (bind_inl (read_key _ _)); [|by apply read_key_ok]);
    (rewrite (bind_inl _ _ _ _ _ E1)); (erewrite (bind_inl (for_each _ _)); [|done]);
    first [rewrite (bind_inl _ _ _ _ _ (E4 _)); done
          |(rewrite (bind_inl _ _ _ _ _ E2)); (erewrite (bind_inl (for_each _ _)); [|done]); done].
Qed.

Lemma hnew_facts h o k ck :
  Wf h → cls_of h o = Some ck →
  Frame h (hnew o k [] h) ∧ (∀ o' k', view (hnew o k [] h) o' k' = upd (view h) o k (OL []) o' k') ∧
  ∃ l, slot (hnew o k [] h) o k = Some (VList l) ∧ h_lists (hnew o k [] h) !! l = Some [].
Proof.
  intros Hwf Hc. assert (is_Some (cls_of h o)) by eauto.
  split_and!; [by apply Frame_hnew|intros; by apply view_hnew|].
  exists (fresh_list h). unfold hnew. split; [by apply slot_hset|by rewrite lists_hset, lists_lset].
Qed.

Lemma hset_facts h o k v ck :
  Wf h → cls_of h o = Some ck → is_vlist v = false →
  Frame h (hset o k v h) ∧ (∀ o' k', view (hset o k v h) o' k' = upd (view h) o k (OV v) o' k') ∧
  slot (hset o k v h) o k = Some v.
Proof.
  intros Hwf Hc Hv. assert (is_Some (cls_of h o)) by eauto.
  split_and!; [by apply Frame_hset|intros; by apply view_hset|by apply slot_hset].
Qed.

Lemma upd_upd V o k a b o' k' : upd (upd V o k a) o k b o' k' = upd V o k b o' k'.
Proof. apply upd_ext. intros. by rewrite upd_ne. Qed.

Lemma blank_step_run f h o ck env s ws :
  Wf h → cls_of h o = Some ck → blank_step (lookup_prop S ck) env s = Some ws →
  ∃ h', run_step S (Datatypes.S f) (VRef o) env s h = (inl tt, h') ∧ Frame h h' ∧
    ∀ o' k', view h' o' k' = apply_writes o ws (view h) o' k'.
Proof.
  intros Hwf Hc Hb.
  assert (∀ h p, cls_of h o = Some ck → pkind S h o p = lookup_prop S ck p) as Hkind.
  { intros h0 p Hc0. unfold pkind. by rewrite Hc0. }
  destruct s as [p|p|p|p|p|]; cbn [blank_step run_step] in *.
  - (* SAttr *)
    destruct (lookup_prop S ck p) eqn:Ep; [done|].
    destruct (is_pub p) eqn:Epub; [|done]. destruct (is_vlist (env_get env p)) eqn:Evl; [done|].
    simpl in Hb. simplify_eq. rewrite set_plain; [|by rewrite Hkind|by rewrite Hc; eauto].
    rewrite key_of_pub by done.
    destruct (hset_facts h o (Pub p) (env_get env p) ck) as (? & ? & _); [done..|].
    eexists. split_and!; [done|done|]. done.
  - (* SOne *)
    destruct (hset_facts h o (Priv p) VNone ck) as (HF1 & HV1 & Hs1); [done..|].
    set (h1 := hset o (Priv p) VNone h) in *.
    assert (cls_of h1 o = Some ck) as Hc1 by (by rewrite (Frame_cls h)).
    destruct (hset_facts h1 o (Priv p) VNone ck) as (HF2 & HV2 & Hs2); [by eapply Frame_wf|done..|].
    assert (ws = [(Priv p, BV VNone)] ∧ env_get env p = VNone ∧
       setattr S (Datatypes.S f) (VRef o) p VNone h1 = (inl tt, hset o (Priv p) VNone h1)) as (-> & -> & E).
    { cbn [setattr]. rewrite obj_prop_pkind, Hkind by done.
      assert (is_Some (cls_of h1 o)) by (rewrite Hc1; eauto).
      destruct (lookup_prop S ck p) as [[]|] eqn:Ep; try done;
        destruct (env_get env p); try done; simplify_eq; (split_and!; [done..|]).
      - erewrite (bind_inl (read_key _ _)); [|by apply read_key_ok]. rewrite decide_True by done.
        erewrite (bind_inl (ret tt)); [|done].
        erewrite (bind_inl (write_key _ _ _)); [|by apply write_key_ok].
        erewrite (bind_inl (read_key _ _)); [|by apply read_key_ok]. cbv beta. by rewrite decide_True.
      - erewrite (bind_inl (read_key _ _)); [|by apply read_key_ok]. rewrite decide_True by done.
        erewrite (bind_inl (ret tt)); [|done].
        erewrite (bind_inl (write_key _ _ _)); [|by apply write_key_ok].
        erewrite (bind_inl (read_key _ _)); [|by apply read_key_ok]. cbv beta. by rewrite decide_True.
      - by apply write_key_ok. }
    eexists. split_and!.
    + erewrite bind_inl; [|by apply write_key_ok; eauto]. done.
    + by eapply Frame_trans.
    + intros o' k'. rewrite HV2. simpl. rewrite <- (upd_upd (view h) o (Priv p) (OV VNone) (OV VNone)).
      apply upd_ext. intros _. apply HV1.
  - (* SMany *)
    destruct (hnew_facts h o (Priv p) ck) as (HF1 & HV1 & l & Hs1 & Hl1); [done..|].
    set (h1 := hnew o (Priv p) [] h) in *.
    assert (cls_of h1 o = Some ck) as Hc1 by (by rewrite (Frame_cls h)).
    destruct (hnew_facts h1 o (Priv p) ck) as (HF2 & HV2 & _); [by eapply Frame_wf|done..|].
    assert (ws = [(Priv p, BNil)] ∧ env_get env p = VNone ∧
      ∃ pr, lookup_prop S ck p = Some pr ∧
      (match pr with PManyOne _ | PManyMany _ | PManyOneDbl _ => true | _ => false end) = true) as (-> & -> & pr & Ep & Epr).
    { destruct (lookup_prop S ck p) as [[]|]; try done; destruct (env_get env p); try done;
        simplify_eq; eauto. }
    eexists. split_and!.
    + erewrite bind_inl; [|done]. erewrite bind_inl; cycle 1.
      { apply write_key_ok. rewrite cls_lset, Hc. eauto. }
      rewrite decide_True by done.
      change (hset o (Priv p) (VList (fresh_list h)) (lset (fresh_list h) [] h)) with h1.
      by eapply set_coll_nil.
    + by eapply Frame_trans.
    + intros o' k'. rewrite HV2. simpl. rewrite <- (upd_upd (view h) o (Priv p) (OL []) (OL [])).
      apply upd_ext. intros _. apply HV1.
  - (* SPlainMany *)
    destruct (lookup_prop S ck p) eqn:Ep; [done|]. destruct (env_get env p); try done.
    destruct (is_pub p) eqn:Epub; [|done]. simplify_eq.
    destruct (hnew_facts h o (Pub p) ck) as (HF1 & HV1 & _); [done..|].
    eexists. rewrite decide_True by done. split_and!.
    + erewrite bind_inl; [|done].
      rewrite set_plain; [|by rewrite Hkind|by rewrite cls_lset, Hc; eauto].
      rewrite key_of_pub by done. done.
    + done.
    + done.
  - (* SPriv *)
    assert (ws = [(Priv p, BV VNone)] ∧ env_get env p = VNone) as [-> ->].
    { destruct (lookup_prop S ck p) as [[]|]; try done; destruct (env_get env p); try done; simplify_eq; eauto. }
    destruct (hset_facts h o (Priv p) VNone ck) as (? & ? & _); [done..|].
    eexists. split_and!; [apply write_key_ok; eauto|done|]. done.
  - (* SImpedance *)
    destruct (env_get env (u "SequenceImpedance")); try done.
    destruct (env_get env (u "PhaseImpedance")); try done.
    destruct (env_get env (u "PerLengthImpedance")); try done.
    destruct (lookup_prop S ck (u "SequenceImpedance")) as [[]|]; try done.
    destruct (lookup_prop S ck (u "PhaseImpedance")) as [[]|]; try done.
    destruct (lookup_prop S ck (u "PerLengthImpedance")) as [[]|]; try done.
    simplify_eq.
    destruct (hset_facts h o (Priv (u "SequenceImpedance")) VNone ck) as (HF1 & HV1 & Hs1); [done..|].
    set (h1 := hset o (Priv (u "SequenceImpedance")) VNone h) in *.
    assert (cls_of h1 o = Some ck) as Hc1 by (by rewrite (Frame_cls h)).
    destruct (hset_facts h1 o (Priv (u "PhaseImpedance")) VNone ck) as (HF2 & HV2 & Hs2); [by eapply Frame_wf|done..|].
    set (h2 := hset o (Priv (u "PhaseImpedance")) VNone h1) in *.
    assert (cls_of h2 o = Some ck) as Hc2 by (by rewrite (Frame_cls h1)).
    destruct (hset_facts h2 o (Priv (u "PerLengthImpedance")) VNone ck) as (HF3 & HV3 & Hs3); [by eapply Frame_wf|done..|].
    eexists. split_and!.
    + erewrite bind_inl; [|apply write_key_ok; eauto].
      erewrite bind_inl; [|apply write_key_ok; eauto].
      erewrite bind_inl; [|apply write_key_ok; eauto].
      rewrite decide_False by naive_solver. rewrite decide_False by naive_solver.
      rewrite decide_False by naive_solver. done.
    + eapply Frame_trans; [done|]. by eapply Frame_trans.
    + intros o' k'. rewrite HV3. cbn [apply_writes bov]. apply upd_ext. intros _. rewrite HV2. apply upd_ext. intros _.
      apply HV1.
Qed.

Lemma blank_steps_run f o ck env ss : ∀ h ws,
  Wf h → cls_of h o = Some ck → blank_steps (lookup_prop S ck) env ss = Some ws →
  ∃ h', for_each ss (run_step S (Datatypes.S f) (VRef o) env) h = (inl tt, h') ∧ Frame h h' ∧
    ∀ o' k', view h' o' k' = apply_writes o ws (view h) o' k'.
Proof.
  induction ss as [|s ss IH]; intros h ws Hwf Hc Hb; cbn [blank_steps for_each] in *.
  { simplify_eq. exists h. split_and!; [done|by apply Frame_refl|done]. }
  destruct (blank_step _ env s) as [a|] eqn:Ea; [|done].
  destruct (blank_steps _ env ss) as [b|] eqn:Eb; [|done]. simpl in Hb. simplify_eq.
  destruct (blank_step_run f h o ck env s a) as (h1 & E1 & HF1 & HV1); [done..|].
  destruct (IH h1 b) as (h2 & E2 & HF2 & HV2); [by eapply Frame_wf|by rewrite (Frame_cls h)|done|].
  exists h2. split_and!.
  - by erewrite bind_inl.
  - by eapply Frame_trans.
  - intros o' k'. rewrite HV2, apply_writes_app. by apply apply_writes_ext.
Qed.

Lemma blank_chain_run f o ck cs : ∀ h pos kw ws,
  Wf h → cls_of h o = Some ck → blank_chain (lookup_prop S ck) cs pos kw = Some ws →
  ∃ h', init_chain S (Datatypes.S f) cs (VRef o) pos kw h = (inl tt, h') ∧ Frame h h' ∧
    ∀ o' k', view h' o' k' = apply_writes o ws (view h) o' k'.
Proof.
  induction cs as [|c cs IH]; intros h pos kw ws Hwf Hc Hb; cbn [blank_chain init_chain] in *.
  { destruct pos; [|done]. destruct kw; [|done]. simplify_eq.
    exists h. split_and!; [done|by apply Frame_refl|done]. }
  destruct (bind_args (c_params c) pos kw) as [[[env pos'] kw']|]; [|done].
  destruct (negb (c_kw c) && _); [done|].
  destruct (blank_steps _ env (c_steps c)) as [a|] eqn:Ea; [|done]. simpl in Hb.
  destruct (blank_steps_run f o ck env (c_steps c) h a) as (h1 & E1 & HF1 & HV1); [done..|].
  destruct (c_kw c).
  - destruct (c_super_ok c); [|done].
    destruct (blank_chain _ cs pos' kw') as [b|] eqn:Eb; [|done]. simpl in Hb. simplify_eq.
    destruct (IH h1 pos' kw' b) as (h2 & E2 & HF2 & HV2); [by eapply Frame_wf|by rewrite (Frame_cls h)|done|].
    exists h2. split_and!.
    + by erewrite bind_inl.
    + by eapply Frame_trans.
    + intros o' k'. rewrite HV2, apply_writes_app. by apply apply_writes_ext.
  - simplify_eq. exists h1. split_and!; [by erewrite bind_inl|done|done].
Qed.

(** A new object in the heap. *)
Definition halloc (o : nat) (ck : name) (h : heap) : heap :=
  Heap (<[o := Obj ck ∅]> (h_objs h)) (h_lists h).
Lemma halloc_facts h o ck :
  Wf h → cls_of h o = None →
  Wf (halloc o ck h) ∧ (∀ o', cls_of (halloc o ck h) o' = if decide (o' = o) then Some ck else cls_of h o') ∧
  keeps h (halloc o ck h) ∧ ∀ o' k, view (halloc o ck h) o' k = view h o' k.
Proof.
  intros Hwf Hn.
  assert (h_objs h !! o = None) as Ho.
  { unfold cls_of in Hn. by destruct (h_objs h !! o). }
  assert (∀ o' k, slot (halloc o ck h) o' k = slot h o' k) as Hs.
  { intros o' k. unfold slot, halloc; simpl. destruct (decide (o = o')) as [->|].
    - rewrite lookup_insert, Ho. simpl. apply lookup_empty.
    - by rewrite lookup_insert_ne. }
  destruct Hwf as [Hl Hu]. split_and!.
  - split.
    + intros o' k l. rewrite Hs. apply Hl.
    + intros *. rewrite !Hs. apply Hu.
  - intros o'. unfold cls_of, halloc; simpl. destruct (decide (o' = o)) as [->|].
    + by rewrite lookup_insert.
    + by rewrite lookup_insert_ne.
  - intros l xs ? Hlo. split; [done|]. intros o' k. rewrite Hs. apply Hlo.
  - intros o' k. unfold view. by rewrite Hs.
Qed.

Lemma fresh_obj_cls h : cls_of h (fresh_obj h) = None.
Proof. unfold cls_of. by rewrite fresh_obj_None. Qed.

Lemma construct_blank f h ck pos kw ws :
  Wf h → blank_new S ck pos kw = Some ws →
  ∃ h', construct S (Datatypes.S f) ck pos kw h = (inl (VRef (fresh_obj h)), h') ∧ Wf h' ∧ keeps h h' ∧
    (∀ o', cls_of h' o' = if decide (o' = fresh_obj h) then Some ck else cls_of h o') ∧
    ∀ o' k', view h' o' k' = apply_writes (fresh_obj h) ws (view h) o' k'.
Proof.
  intros Hwf Hb. unfold blank_new, construct in *.
  destruct (find_cls S ck); [|done].
  destruct (halloc_facts h (fresh_obj h) ck) as (Hwf1 & Hc1 & Hk1 & HV1); [done|apply fresh_obj_cls|].
  destruct (blank_chain_run f (fresh_obj h) ck (mro S ck) (halloc (fresh_obj h) ck h) pos kw ws)
    as (h2 & E2 & HF2 & HV2); [done|by rewrite Hc1, decide_True|done|].
  exists h2. split_and!.
  - erewrite bind_inl; [|done]. done.
  - by eapply Frame_wf.
  - eapply keeps_trans; [done|]. apply HF2.
  - intros o'. rewrite (Frame_cls (halloc (fresh_obj h) ck h)) by done. apply Hc1.
  - intros o' k'. rewrite HV2. by apply apply_writes_ext.
Qed.

(** The Priv slots written are blank for the property they belong to. *)
Definition blank_ok (kind : name → option prop) (kb : key * bval) : Prop :=
  match kb with
  | (Priv p, b) =>
      match kind p with
      | Some (POneMany _) | Some (POneOne _) => b = BV VNone
      | Some (PManyOne _) | Some (PManyMany _) => b = BNil
      | _ => True
      end
  | _ => True
  end.
Lemma blank_steps_ok kind env ss : ∀ ws, blank_steps kind env ss = Some ws → Forall (blank_ok kind) ws.
Proof.
  induction ss as [|s ss IH]; intros ws Hb; cbn [blank_steps] in Hb; [by simplify_eq|].
  destruct (blank_step _ env s) as [a|] eqn:Ea; [|done].
  destruct (blank_steps _ env ss) as [b|] eqn:Eb; [|done]. simpl in Hb. simplify_eq.
  apply Forall_app. split; [|by apply IH]. clear IH Eb.
  destruct s as [p|p|p|p|p|]; cbn [blank_step] in Ea.
  1-5: destruct (kind p) as [[]|] eqn:Ek; try done; destruct (env_get env p) eqn:Ee; try done;
      try (destruct (is_pub p); try done); simpl in Ea; simplify_eq;
      repeat constructor; simpl; rewrite ?Ek; done.
  destruct (env_get env (u "SequenceImpedance")); try done.
  destruct (env_get env (u "PhaseImpedance")); try done.
  destruct (env_get env (u "PerLengthImpedance")); try done.
  destruct (kind (u "SequenceImpedance")) as [[]|] eqn:E1; try done.
  destruct (kind (u "PhaseImpedance")) as [[]|] eqn:E2; try done.
  destruct (kind (u "PerLengthImpedance")) as [[]|] eqn:E3; try done.
  simplify_eq. repeat constructor; cbn [blank_ok]; rewrite ?E1, ?E2, ?E3; done.
Qed.
Lemma blank_chain_ok kind cs : ∀ pos kw ws, blank_chain kind cs pos kw = Some ws → Forall (blank_ok kind) ws.
Proof.
  induction cs as [|c cs IH]; intros pos kw ws Hb; cbn [blank_chain] in Hb.
  { destruct pos; [|done]. destruct kw; [|done]. by simplify_eq. }
  destruct (bind_args (c_params c) pos kw) as [[[env pos'] kw']|]; [|done].
  destruct (negb (c_kw c) && _); [done|].
  destruct (blank_steps _ env (c_steps c)) as [a|] eqn:Ea; [|done]. simpl in Hb.
  apply blank_steps_ok in Ea. destruct (c_kw c); [|by simplify_eq].
  destruct (c_super_ok c); [|done].
  destruct (blank_chain _ cs pos' kw') as [b|] eqn:Eb; [|done]. simpl in Hb. simplify_eq.
  apply Forall_app. split; [done|]. by eapply IH.
Qed.

Lemma last_write_ok kind p ws : ∀ d w,
  Forall (blank_ok kind) ws → last_write (Priv p) ws d = Some w →
  d = Some w ∨ ∃ b, w = bov b ∧ blank_ok kind (Priv p, b).
Proof.
  induction ws as [|[k b] ws IH]; intros d w Hf Hl; [by left|].
  apply Forall_cons in Hf as [Hb Hf]. simpl in Hl.
  apply IH in Hl as [Hd|?]; [|by right|done].
  case_decide as Hk; [|by left]. subst k. simplify_eq. right. eauto.
Qed.

(** A freshly constructed object keeps the graph consistent. *)
Lemma construct_blank_Consistent f h ck pos kw ws :
  Consistent S h → blank_new S ck pos kw = Some ws →
  ∃ h', construct S (Datatypes.S f) ck pos kw h = (inl (VRef (fresh_obj h)), h') ∧ Consistent S h' ∧
    keeps h h' ∧
    (∀ o', cls_of h' o' = if decide (o' = fresh_obj h) then Some ck else cls_of h o') ∧
    ∀ o' k', view h' o' k' = apply_writes (fresh_obj h) ws (view h) o' k'.
Proof.
  intros [Hwf HL] Hb.
  destruct (construct_blank f h ck pos kw ws Hwf Hb) as (h' & E & Hwf' & Hke & Hc & HV).
  exists h'. split_and!; [done| |done..]. split; [done|].
  set (o := fresh_obj h) in *.
  assert (Forall (blank_ok (lookup_prop S ck)) ws) as Hok.
  { unfold blank_new in Hb. destruct (find_cls S ck); [|done]. by eapply blank_chain_ok. }
  assert (∀ k, view h o k = None) as HVo.
  { intros k. destruct (view h o k) eqn:Ev; [|done]. apply view_Some_cls in Ev.
    unfold o in Ev. rewrite fresh_obj_cls in Ev. by destruct Ev. }
  assert (∀ o' p, o' ≠ o → pkind S h' o' p = pkind S h o' p) as HK.
  { intros o' p Hne. unfold pkind. by rewrite Hc, decide_False. }
  assert (∀ p, pkind S h' o p = lookup_prop S ck p) as HKo.
  { intros p. unfold pkind. by rewrite Hc, decide_True. }
  assert (∀ o' k, o' ≠ o → view h' o' k = view h o' k) as HVn.
  { intros o' k Hne. rewrite HV. by apply apply_writes_ne. }
  assert (∀ p w, view h' o (Priv p) = Some w → ∃ b, w = bov b ∧ blank_ok (lookup_prop S ck) (Priv p, b)) as Hnew.
  { intros p w. rewrite HV, apply_writes_self, HVo. intros Hw.
    apply (last_write_ok (lookup_prop S ck)) in Hw as [|]; done. }
  assert (∀ o' k w, view h o' k = Some w → o' ≠ o) as Hold.
  { intros o' k w Hw ->. by rewrite HVo in Hw. }
  assert (∀ x p t q k w k2 w2, view h x k = Some w → view h t k2 = Some w2 →
     ends_one_many (pkind S h) x p t q → ends_one_many (pkind S h') x p t q) as He.
  { intros x p t q k w k2 w2 Hx%Hold Ht%Hold (E1 & p' & E2 & E3). split; [by rewrite HK|].
    exists p'. rewrite HK by done. split; [done|].
    destruct E3 as [[-> ?]|[c ?]]; [left|right]; setoid_rewrite HK; eauto. }
  split.
  - intros x p q w Hk Hw. destruct (decide (x = o)) as [->|Hne].
    { rewrite HKo in Hk. destruct (Hnew _ _ Hw) as (b & -> & Hb2). simpl in Hb2. rewrite Hk in Hb2.
      subst b. by left. }
    rewrite HK in Hk by done. rewrite HVn in Hw by done.
    destruct (lk_single _ _ HL _ _ _ _ Hk Hw) as [->|(t & ys & -> & ? & Hvt & ?)]; [by left|right].
    exists t, ys. split_and!; [done|by eapply He| |done]. rewrite HVn; [done|by eapply Hold].
  - intros t q p' w Hk Hw. destruct (decide (t = o)) as [->|Hne].
    { rewrite HKo in Hk. destruct (Hnew _ _ Hw) as (b & -> & Hb2). simpl in Hb2. rewrite Hk in Hb2.
      subst b. exists []. split_and!; [done|constructor|]. by intros ? ?%elem_of_nil. }
    rewrite HK in Hk by done. rewrite HVn in Hw by done.
    destruct (lk_coll _ _ HL _ _ _ _ Hk Hw) as (ys & -> & ? & Hm). exists ys. split_and!; [done..|].
    intros y Hy. destruct (Hm y Hy) as (x & p & -> & ? & Hvx). exists x, p.
    split_and!; [done|by eapply He|]. rewrite HVn; [done|by eapply Hold].
  - intros x p q w Hk Hw. destruct (decide (x = o)) as [->|Hne].
    { rewrite HKo in Hk. destruct (Hnew _ _ Hw) as (b & -> & Hb2). simpl in Hb2. rewrite Hk in Hb2.
      subst b. by left. }
    rewrite HK in Hk by done. rewrite HVn in Hw by done.
    destruct (lk_one_one _ _ HL _ _ _ _ Hk Hw) as [->|(y & -> & [? ?] & Hvy)]; [by left|right].
    pose proof (Hold _ _ _ Hvy). exists y. split_and!; [done| |by rewrite HVn].
    split; by rewrite HK.
  - intros x p q w Hk Hw. destruct (decide (x = o)) as [->|Hne].
    { rewrite HKo in Hk. destruct (Hnew _ _ Hw) as (b & -> & Hb2). simpl in Hb2. rewrite Hk in Hb2.
      subst b. exists []. split_and!; [done|]. by intros ? ?%elem_of_nil. }
    rewrite HK in Hk by done. rewrite HVn in Hw by done.
    destruct (lk_many_many _ _ HL _ _ _ _ Hk Hw) as (ys & -> & Hm). exists ys. split; [done|].
    intros e Hin. destruct (Hm e Hin) as (y & xs & -> & [? ?] & Hvy & ?).
    pose proof (Hold _ _ _ Hvy). exists y, xs. split_and!; [done| |by rewrite HVn|done].
    split; by rewrite HK.
Qed.
End ctor.
