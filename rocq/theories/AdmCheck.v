(** A checker for the admissibility of concrete client programs, used only in
    the examples. *)
From Coq Require Import String.
From stdpp Require Import prelude gmap.
From Verif Require Import PyStr PyHeap Schema Assoc AssocSpec HeapFacts History HistorySpec HistoryFacts GraphCheck.

Definition some_b {A} (x : option A) : bool := match x with Some _ => true | None => false end.
Lemma some_b_ok {A} (x : option A) : some_b x = true → is_Some x.
Proof. destruct x; [eauto|done]. Qed.
Definition public_b (p : name) : bool := bool_decide (key_of p = Pub p).
Definition not_list_b (v : val) : bool := match v with VList _ => false | _ => true end.
Lemma not_list_b_ok v : not_list_b v = true → not_list v.
Proof. by destruct v. Qed.
Definition is_ol (w : option ov) : bool := match w with Some (OL _) => true | _ => false end.
Lemma is_ol_ok w : is_ol w = true → ∃ ys, w = Some (OL ys).
Proof. destruct w as [[]|]; naive_solver. Qed.

Section check.
Context (S : schema).

Section state.
Context (h : heap).
Notation K := (pkind S h).
Notation V := (view h).

Lemma mm_b_ok x p y q : mm_b S h x p y q = true → ends_many_many K x p y q.
Proof. unfold mm_b. by intros ?%bool_decide_eq_true. Qed.
Definition oo_b (x : nat) (p : name) (y : nat) (q : name) : bool :=
  bool_decide (K x p = Some (POneOne q)) && bool_decide (K y q = Some (POneOne p)).
Lemma oo_b_ok x p y q : oo_b x p y q = true → ends_one_one K x p y q.
Proof. by intros [?%bool_decide_eq_true ?%bool_decide_eq_true]%andb_prop. Qed.
Definition fits_om_b (x : nat) (p q : name) (v : val) : bool :=
  match v with
  | VNone => true
  | VRef t => om_b S h x p t q && is_ol (V t (Priv q))
  | _ => false
  end.
Lemma fits_om_b_ok x p q v : fits_om_b x p q v = true → fits_one_many S h x p q v.
Proof.
  destruct v; try done; [by left|]. intros [H1%om_b_ok [ys Hy]%is_ol_ok]%andb_prop. right. eauto 10.
Qed.
Definition fits_oo_b (x : nat) (p q : name) (v : val) : bool :=
  match v with
  | VNone => true
  | VRef y => oo_b x p y q && some_b (slot h y (Priv q))
  | _ => false
  end.
Lemma fits_oo_b_ok x p q v : fits_oo_b x p q v = true → fits_one_one S h x p q v.
Proof.
  destruct v; try done; [by left|]. intros [H1%oo_b_ok H2%some_b_ok]%andb_prop. right. eauto 10.
Qed.

Definition adm_set_b (x : nat) (p : name) (v : val) : bool :=
  match K x p with
  | None => some_b (cls_of h x) && public_b p && not_list_b v
  | Some PPrivate => not_list_b v
  | Some (POneMany q) => some_b (slot h x (Priv p)) && fits_om_b x p q v
  | Some (POneOne q) => some_b (slot h x (Priv p)) && fits_oo_b x p q v
  | Some (PAlias p2 _) =>
      some_b (slot h x (Priv p2)) && match K x p2 with Some (POneMany q) => fits_om_b x p2 q v | _ => false end
  | _ => false
  end.
Lemma adm_set_b_ok x p v : adm_set_b x p v = true → adm_set S h x p v.
Proof.
  unfold adm_set_b, adm_set. destruct (K x p) as [[q|q|q|q| |q|q c]|]; try done.
  - intros [?%some_b_ok ?%fits_om_b_ok]%andb_prop. done.
  - intros [?%some_b_ok ?%fits_oo_b_ok]%andb_prop. done.
  - by intros ?%not_list_b_ok.
  - intros [?%some_b_ok Hq]%andb_prop. split; [done|]. destruct (K x q) as [[]|]; try done.
    apply fits_om_b_ok in Hq. eauto.
  - intros [[?%some_b_ok ?%bool_decide_eq_true]%andb_prop ?%not_list_b_ok]%andb_prop. done.
Qed.

Definition adm_set_list_b (t : nat) (q : name) (ys : list nat) : bool :=
  match K t q with
  | None => some_b (cls_of h t) && public_b q
  | Some (PManyOne p) =>
      some_b (slot h t (Priv q)) && bool_decide (NoDup ys) &&
      forallb (λ y, bool_decide (K y p = Some (POneMany q)) &&
        bool_decide (V y (Priv p) = Some (OV VNone) ∨ V y (Priv p) = Some (OV (VRef t)))) ys
  | Some (PManyMany p) =>
      bool_decide (V t (Priv q) = Some (OL [])) && bool_decide (NoDup ys) &&
      forallb (λ y, mm_b S h t q y p && is_ol (V y (Priv p))) ys
  | _ => false
  end.
Lemma adm_set_list_b_ok t q ys : adm_set_list_b t q ys = true → adm_set_list S h t q ys.
Proof.
  unfold adm_set_list_b, adm_set_list. destruct (K t q) as [[p|p|p|p| |p|p c]|]; try done.
  - intros [[H1%some_b_ok H2%bool_decide_eq_true]%andb_prop H3]%andb_prop. split_and!; [done..|].
    rewrite forallb_forall in H3. intros y Hy%elem_of_list_In%H3.
    apply andb_prop in Hy as [?%bool_decide_eq_true ?%bool_decide_eq_true]. done.
  - intros [[H1%bool_decide_eq_true H2%bool_decide_eq_true]%andb_prop H3]%andb_prop. split_and!; [done..|].
    rewrite forallb_forall in H3. intros y Hy%elem_of_list_In%H3.
    apply andb_prop in Hy as [?%mm_b_ok ?%is_ol_ok]. done.
  - intros [H1%some_b_ok H2%bool_decide_eq_true]%andb_prop. done.
Qed.

Definition adm_add_b (t : nat) (q : name) (ys : list nat) : bool :=
  match K t q with
  | Some (PManyOne p') =>
      is_ol (V t (Priv q)) &&
      match ys with
      | [] => true
      | y0 :: _ => let p := resolve S h y0 p' in
          forallb (λ y, bool_decide (resolve S h y p' = p) && om_b S h y p t q && some_b (slot h y (Priv p))) ys
      end
  | Some (PManyMany p) =>
      match V t (Priv q) with
      | Some (OL ps) => bool_decide (NoDup ys) &&
          forallb (λ y, mm_b S h t q y p && bool_decide (VRef y ∉ ps) && is_ol (V y (Priv p))) ys
      | _ => false
      end
  | _ => false
  end.
Lemma resolve_ok y p' p : resolve S h y p' = p → resolves K y p' p.
Proof.
  unfold resolve, resolves. intros <-. destruct (K y p') as [[]|]; try (left; split; [done|congruence]). right. eauto.
Qed.
Lemma adm_add_b_ok t q ys : adm_add_b t q ys = true → adm_add S h t q ys.
Proof.
  unfold adm_add_b, adm_add. destruct (K t q) as [[p|p|p|p| |p|p c]|]; try done.
  - intros [H1%is_ol_ok H2]%andb_prop. split; [done|]. destruct ys as [|y0 ys].
    + exists p. by intros ? ?%elem_of_nil.
    + exists (resolve S h y0 p). rewrite forallb_forall in H2. intros y Hy%elem_of_list_In%H2.
      apply andb_prop in Hy as [[?%bool_decide_eq_true%resolve_ok ?%om_b_ok]%andb_prop ?%some_b_ok]. done.
  - destruct (V t (Priv q)) as [[|ps]|]; try done. intros [H1%bool_decide_eq_true H2]%andb_prop. exists ps. split_and!; [done..|].
    rewrite forallb_forall in H2. intros y Hy%elem_of_list_In%H2.
    apply andb_prop in Hy as [[?%mm_b_ok ?%bool_decide_eq_true]%andb_prop ?%is_ol_ok]. done.
Qed.

Definition adm_remove_b (t : nat) (q : name) (ys : list nat) : bool :=
  match K t q with
  | Some (PManyOne p') =>
      match ys with
      | [] => true
      | y0 :: _ => let p := resolve S h y0 p' in
          forallb (λ y, bool_decide (resolve S h y p' = p) && bool_decide (K y p = Some (POneMany q)) && some_b (slot h y (Priv p))) ys
      end
  | Some (PManyMany p) =>
      match V t (Priv q) with
      | Some (OL ps) => bool_decide (NoDup ys) && forallb (λ y, bool_decide (VRef y ∈ ps)) ys
      | _ => false
      end
  | _ => false
  end.
Lemma adm_remove_b_ok t q ys : adm_remove_b t q ys = true → adm_remove S h t q ys.
Proof.
  unfold adm_remove_b, adm_remove. destruct (K t q) as [[p|p|p|p| |p|p c]|]; try done.
  - intros H2. destruct ys as [|y0 ys].
    + exists p. by intros ? ?%elem_of_nil.
    + exists (resolve S h y0 p). rewrite forallb_forall in H2. intros y Hy%elem_of_list_In%H2.
      apply andb_prop in Hy as [[?%bool_decide_eq_true%resolve_ok ?%bool_decide_eq_true]%andb_prop ?%some_b_ok]. done.
  - destruct (V t (Priv q)) as [[|ps]|]; try done. intros [H1%bool_decide_eq_true H2]%andb_prop. exists ps. split_and!; [done..|].
    rewrite forallb_forall in H2. intros y Hy%elem_of_list_In%H2. by apply bool_decide_eq_true in Hy.
Qed.

Fixpoint refs_of (xs : list val) : option (list nat) :=
  match xs with
  | [] => Some []
  | VRef o :: r => (o ::.) <$> refs_of r
  | _ => None
  end.
Lemma refs_of_ok xs ys : refs_of xs = Some ys → xs = map VRef ys.
Proof.
  revert ys. induction xs as [|x xs IH]; intros ys; [by intros [= <-]|]. destruct x; try done. simpl.
  destruct (refs_of xs); [|done]. intros [= <-]. simpl. f_equal. by apply IH.
Qed.
Definition display_of (v : val) : option (list nat) :=
  match v with
  | VList l => match h_lists h !! l with
      | Some xs => if forallb (λ '(_, _, w), bool_decide (w ≠ VList l)) (slots h) then refs_of xs else None
      | None => None end
  | _ => None
  end.
Lemma display_of_ok v ys : display_of v = Some ys → display h v ys.
Proof.
  destruct v as [| | | | | |l]; try done. unfold display_of. destruct (h_lists h !! l) as [xs|] eqn:E; [|done].
  destruct (forallb _ _) eqn:Ef; [|done]. intros Hr%refs_of_ok. exists l. split_and!; [done|by subst|].
  intros o k Hs%slots_spec%elem_of_list_In. rewrite forallb_forall in Ef. apply Ef in Hs. simpl in Hs.
  by apply bool_decide_eq_true in Hs.
Qed.

Lemma display_of_loose l ys : display_of (VList l) = Some ys → ∀ o k, slot h o k ≠ Some (VList l).
Proof. intros (l' & El & _ & Hlo)%display_of_ok. by injection El as ->. Qed.

Definition blank_slot_b (o : nat) (p : name) (none : ov) : bool :=
  bool_decide (V o (Priv p) = None ∨ V o (Priv p) = Some none).
Lemma blank_slot_b_ok o p n : blank_slot_b o p n = true → blank_slot h o p n.
Proof. by intros ?%bool_decide_eq_true. Qed.
End state.

Definition adm_step_b (h : heap) (o : nat) (env : list (name * val)) (s : step) : bool :=
  match s with
  | SAttr p => bool_decide (pkind S h o p = None) && public_b p && not_list_b (env_get env p)
  | SOne p =>
      blank_slot_b h o p (OV VNone) &&
      (match pkind S h o p with Some (POneMany _) | Some (POneOne _) | Some PPrivate => true | _ => false end) &&
      adm_set_b (hset o (Priv p) VNone h) o p (env_get env p)
  | SMany p =>
      blank_slot_b h o p (OL []) &&
      match pkind S h o p with
      | Some (PManyOne _) | Some (PManyMany _) =>
          if decide (env_get env p = VNone) then true else
            match display_of h (env_get env p) with
            | Some ys => adm_set_list_b (hset o (Priv p) (VList (fresh_list h)) (lset (fresh_list h) [] h)) o p ys
            | None => false
            end
      | Some (PManyOneDbl _) => bool_decide (env_get env p = VNone)
      | _ => false
      end
  | SPlainMany p =>
      bool_decide (pkind S h o p = None) && public_b p &&
      (bool_decide (env_get env p = VNone) || some_b (display_of h (env_get env p)))
  | SPriv p => bool_decide (pkind S h o p = Some PPrivate) && not_list_b (env_get env p)
  | SImpedance => false
  end.
Lemma adm_step_b_ok h o env s : adm_step_b h o env s = true → adm_step S h o env s.
Proof.
  destruct s as [p|p|p|p|p|]; cbn [adm_step_b adm_step]; [..|done].
  - intros [[?%bool_decide_eq_true ?%bool_decide_eq_true]%andb_prop ?%not_list_b_ok]%andb_prop. done.
  - intros [[?%blank_slot_b_ok H2]%andb_prop ?%adm_set_b_ok]%andb_prop. split_and!; [done| |done].
    by destruct (pkind S h o p) as [[]|].
  - intros [?%blank_slot_b_ok H2]%andb_prop. split; [done|].
    destruct (pkind S h o p) as [[]|]; try done.
    + destruct (decide _); [by left|right]. destruct (display_of h _) as [ys|] eqn:E; [|done].
      exists ys. split; [by apply display_of_ok|by apply adm_set_list_b_ok].
    + destruct (decide _); [by left|right]. destruct (display_of h _) as [ys|] eqn:E; [|done].
      exists ys. split; [by apply display_of_ok|by apply adm_set_list_b_ok].
    + by apply bool_decide_eq_true in H2.
  - intros [[?%bool_decide_eq_true ?%bool_decide_eq_true]%andb_prop [Hd%bool_decide_eq_true|Hd%some_b_ok]%orb_prop]%andb_prop.
    + split_and!; [done..|by left].
    + split_and!; [done..|right]. destruct Hd as [ys ?%display_of_ok]. eauto.
  - intros [?%bool_decide_eq_true ?%not_list_b_ok]%andb_prop. done.
Qed.

Fixpoint adm_steps_b (fuel : nat) (h : heap) (o : nat) (env : list (name * val)) (ss : list step) : bool :=
  match ss with
  | [] => true
  | s :: r => adm_step_b h o env s &&
      match run_step S fuel (VRef o) env s h with (inl _, h') => adm_steps_b fuel h' o env r | _ => true end
  end.
Lemma adm_steps_b_ok fuel o env ss : ∀ h, adm_steps_b fuel h o env ss = true → adm_steps S fuel h o env ss.
Proof.
  induction ss as [|s ss IH]; intros h; [done|]. cbn [adm_steps_b adm_steps].
  intros [?%adm_step_b_ok H2]%andb_prop. split; [done|]. intros h' E. rewrite E in H2. by apply IH.
Qed.
Fixpoint adm_chain_b (fuel : nat) (h : heap) (o : nat) (cs : list cls) (pos : list val) (kw : list (name * val)) : bool :=
  match cs with
  | [] => match pos, kw with [], [] => true | _, _ => false end
  | c :: r =>
      match bind_args (c_params c) pos kw with
      | None => false
      | Some (env, pos', kw') =>
          (c_kw c || match pos', kw' with [], [] => true | _, _ => false end) &&
          adm_steps_b fuel h o env (c_steps c) &&
          (negb (c_kw c) || c_super_ok c &&
            match for_each (c_steps c) (run_step S fuel (VRef o) env) h with
            | (inl _, h') => adm_chain_b fuel h' o r pos' kw'
            | _ => true
            end)
      end
  end.
Lemma adm_chain_b_ok fuel o cs : ∀ h pos kw,
  adm_chain_b fuel h o cs pos kw = true → adm_chain S fuel h o cs pos kw.
Proof.
  induction cs as [|c cs IH]; intros h pos kw; cbn [adm_chain_b adm_chain].
  { by destruct pos, kw. }
  destruct (bind_args (c_params c) pos kw) as [[[env pos'] kw']|]; [|done].
  intros [[H1 H2%adm_steps_b_ok]%andb_prop H3]%andb_prop. exists env, pos', kw'. split_and!; [done| |done|].
  - intros Hf. rewrite Hf in H1. by destruct pos', kw'.
  - intros Hf. rewrite Hf in H3. apply andb_prop in H3 as [? H3]. split; [done|]. intros h' E. rewrite E in H3.
    by apply IH.
Qed.

Definition adm_op_b (fuel : nat) (h : heap) (c : op) : bool :=
  match c with
  | ONew ck kw =>
      some_b (find_cls S ck) &&
      match eval_kw kw h with
      | (inl vs, h1) =>
        adm_chain_b fuel (Heap (<[fresh_obj h1 := Obj ck ∅]> (h_objs h1)) (h_lists h1)) (fresh_obj h1) (mro S ck) [] vs
      | _ => true
      end
  | OSet o p v => adm_set_b h o p v
  | OSetList o p ys => adm_set_list_b h o p ys
  | OAdd o p ys => adm_add_b h o p ys
  | ORemove o p ys => adm_remove_b h o p ys
  end.
Lemma adm_op_b_ok fuel h c : adm_op_b fuel h c = true → adm_op S fuel h c.
Proof.
  destruct c; cbn [adm_op_b adm_op].
  - intros [?%some_b_ok H]%andb_prop. split; [done|]. intros vs h1 E. rewrite E in H. by apply adm_chain_b_ok.
  - apply adm_set_b_ok.
  - apply adm_set_list_b_ok.
  - apply adm_add_b_ok.
  - apply adm_remove_b_ok.
Qed.
Fixpoint adm_ops_b (fuel : nat) (h : heap) (cs : list op) : bool :=
  match cs with
  | [] => true
  | c :: r => adm_op_b fuel h c && match run_op S fuel c h with (inl _, h') => adm_ops_b fuel h' r | _ => true end
  end.
Lemma adm_ops_b_ok fuel cs : ∀ h, adm_ops_b fuel h cs = true → adm_ops S fuel h cs.
Proof.
  induction cs as [|c cs IH]; intros h; [done|]. cbn [adm_ops_b adm_ops].
  intros [?%adm_op_b_ok H]%andb_prop. split; [done|]. intros h' E. rewrite E in H. by apply IH.
Qed.
End check.
