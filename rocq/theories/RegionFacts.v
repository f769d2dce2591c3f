(** Every operation of the class code and of the reader stays inside a region
    of the heap that is closed under references. *)
From Coq Require Import String.
From stdpp Require Import prelude gmap.
From Verif Require Import PyStr PyHeap Schema Assoc AssocSpec HeapFacts Reader ReaderSpec ReaderFacts.

Section region.
Context (h0 : heap) (D : nat → Prop) (Hwf : Wf h0) (Hcl : closed_region h0 D).

(** The region plus everything created since [h0]. *)
Definition inside (o : nat) : Prop := D o ∨ cls_of h0 o = None.
Definition lin (l : nat) : Prop := (∃ o k, D o ∧ slot h0 o k = Some (VList l)) ∨ h_lists h0 !! l = None.
Definition good (v : val) : Prop := match v with VRef o => inside o | VList l => lin l | _ => True end.

Record Inv (h : heap) : Prop := {
  in_cls : ∀ o, is_Some (cls_of h0 o) → cls_of h o = cls_of h0 o;
  in_lists : ∀ l, is_Some (h_lists h0 !! l) → is_Some (h_lists h !! l);
  in_slots : ∀ o k v, inside o → slot h o k = Some v → good v;
  in_members : ∀ l xs, lin l → h_lists h !! l = Some xs → Forall good xs;
  in_out : ∀ o k, ¬ inside o → slot h o k = slot h0 o k;
  in_out_lists : ∀ l, ¬ lin l → h_lists h !! l = h_lists h0 !! l
}.

(** What a caller sees of the objects outside is unchanged. *)
Lemma Inv_view h o k : Inv h → is_Some (cls_of h0 o) → ¬ D o → cls_of h o = cls_of h0 o ∧ view h o k = view h0 o k.
Proof using Hwf.
  intros HI Hc Hd. split; [by apply HI|]. unfold view. rewrite (in_out h HI).
  - destruct (slot h0 o k) as [v|] eqn:E; [|done]. simpl. destruct v; try done. f_equal. apply (in_out_lists h HI).
    intros [(o' & k' & Hd' & E')|E'].
    + destruct (wf_unshared _ Hwf _ _ _ _ _ E E') as [-> _]. done.
    + destruct (wf_lists _ Hwf _ _ _ E). congruence.
  - intros [|E]; [done|]. destruct Hc. congruence.
Qed.
Lemma Inv_start : Inv h0.
Proof using Hcl.
  split; try done.
  - intros o k v Ho Hs. destruct Ho as [Ho|Ho]; [|destruct (slot_cls _ _ _ _ Hs); congruence].
    specialize (Hcl o k v Ho Hs). destruct v as [| | | | |y|l]; simpl; try done; [by left|]. left. eauto.
  - intros l xs [(o & k & Ho & Hs)|E] Hl; [|congruence]. apply Forall_forall. intros v Hv.
    specialize (Hcl o k _ Ho Hs). simpl in Hcl. destruct v as [| | | | |y|l']; simpl; try done.
    + left. by apply (Hcl _ (VRef y) Hl Hv).
    + by destruct (Hcl _ (VList l') Hl Hv).
Qed.

(** Commands that keep the invariant and produce values of the region. *)
Definition safe {A} (P : A → Prop) (m : M A) : Prop := ∀ h, Inv h →
  Inv (snd (m h)) ∧ ∀ a, fst (m h) = inl a → P a.
Lemma safe_ret {A} (P : A → Prop) a : P a → safe P (ret a).
Proof. intros ? h HI. split; [done|]. by intros ? [= <-]. Qed.
Lemma safe_raise {A} (P : A → Prop) e : safe P (raise e).
Proof. intros h HI. split; [done|]. by intros ?. Qed.
Lemma safe_bind {A B} (P : A → Prop) (Q : B → Prop) m f :
  safe P m → (∀ a, P a → safe Q (f a)) → safe Q (bind m f).
Proof.
  intros Hm Hf h HI. unfold bind. destruct (Hm h HI) as [HI' HP]. destruct (m h) as [[a|e] h'] eqn:E; simpl in *.
  - by apply Hf; [apply HP|].
  - split; [done|]. by intros ?.
Qed.
Lemma safe_weaken {A} (P Q : A → Prop) m : safe P m → (∀ a, P a → Q a) → safe Q m.
Proof. intros Hm Hpq h HI. destruct (Hm h HI) as [? HP]. split; [done|]. intros a Ha. apply Hpq, HP, Ha. Qed.
Lemma safe_for_each {A} (P : A → Prop) xs body :
  Forall P xs → (∀ x, P x → safe (λ _ : unit, True) (body x)) → safe (λ _ : unit, True) (for_each xs body).
Proof.
  intros Hxs Hb. induction Hxs as [|x xs Hx Hxs IH]; cbn [for_each]; [by apply safe_ret|].
  apply (safe_bind (λ _, True)); [by apply Hb|done].
Qed.
(** Commands that look at the heap first. *)
Lemma safe_peek {A B} (P : A → Prop) (g : heap → B) (f : B → M A) :
  (∀ h, Inv h → safe P (f (g h))) → safe P (λ h, f (g h) h).
Proof. intros Hf h HI. by apply (Hf h HI h HI). Qed.

Lemma safe_read v k : good v → safe good (read_key v k).
Proof.
  intros Hv h HI. unfold read_key. destruct v as [| | | | |o|]; try done.
  destruct (slot h o k) as [w|] eqn:E; [|done]. split; [done|]. intros a [= <-]. by eapply in_slots.
Qed.
Lemma slot_hset_any o k v h o' k' : slot (hset o k v h) o' k' =
  if decide ((o', k') = (o, k)) then (if decide (is_Some (cls_of h o)) then Some v else None) else slot h o' k'.
Proof.
  destruct (decide ((o', k') = (o, k))) as [[= -> ->]|Hne].
  - destruct (decide (is_Some (cls_of h o))) as [Hc|Hc]; [by apply slot_hset|].
    unfold slot, hset, cls_of in *. simpl. rewrite lookup_alter. destruct (h_objs h !! o); [|done].
    destruct Hc. by eexists.
  - apply slot_hset_ne. congruence.
Qed.
Lemma safe_write v k w : good v → good w → safe (λ _, True) (write_key v k w).
Proof.
  intros Hv Hw h HI. unfold write_key. destruct v as [| | | | |o|]; try done.
  destruct (h_objs h !! o) as [ob|] eqn:E; [|done]. split; [|done]. simpl in *.
  assert (is_Some (cls_of h o)) as Hc by (unfold cls_of; rewrite E; by eexists).
  destruct HI as [I1 I2 I3 I4 I5 I6]. split.
  - intros. rewrite cls_hset. by apply I1.
  - intros. rewrite lists_hset. by apply I2.
  - intros o' k' v' Ho'. rewrite slot_hset_any. case_decide; [|by apply I3].
    rewrite decide_True by done. by intros [= <-].
  - intros l xs. rewrite lists_hset. apply I4.
  - intros o' k' Ho'. rewrite slot_hset_any. case_decide as Ed; [|by apply I5]. by injection Ed as -> ->.
  - intros l. rewrite lists_hset. apply I6.
Qed.
Lemma Inv_lset l xs h : Inv h → lin l → Forall good xs → Inv (lset l xs h).
Proof.
  intros [I1 I2 I3 I4 I5 I6] Hl Hxs. split.
  - intros. rewrite cls_lset. by apply I1.
  - intros l' Hl'. destruct (decide (l = l')) as [<-|]; [rewrite lists_lset; by eexists|].
    rewrite lists_lset_ne by done. by apply I2.
  - intros o k v. rewrite slot_lset. apply I3.
  - intros l' ys Hl'. destruct (decide (l = l')) as [<-|]; [rewrite lists_lset; by intros [= <-]|].
    rewrite lists_lset_ne by done. by apply I4.
  - intros o k. rewrite slot_lset. apply I5.
  - intros l' Hl'. destruct (decide (l = l')) as [<-|]; [done|]. rewrite lists_lset_ne by done. by apply I6.
Qed.
Lemma safe_new_list xs : Forall good xs → safe good (new_list xs).
Proof.
  intros Hxs h HI. assert (lin (fresh_list h)) as Hl.
  { right. destruct (h_lists h0 !! fresh_list h) eqn:E; [|done].
    destruct (in_lists h HI (fresh_list h)) as [? E2]; [by eexists|]. by rewrite fresh_list_None in E2. }
  unfold new_list. split; [by apply Inv_lset|]. by intros a [= <-].
Qed.
Lemma safe_iter v : good v → safe (Forall good) (iter_val v).
Proof.
  intros Hv h HI. unfold iter_val. destruct v as [| | | |s| |l]; try done.
  - split; [done|]. intros a [= <-]. apply Forall_forall. by intros x (? & -> & _)%elem_of_list_fmap.
  - destruct (h_lists h !! l) as [xs|] eqn:E; [|done]. split; [done|]. intros a [= <-]. by eapply in_members.
Qed.
Lemma safe_live_from n l : ∀ i body, lin l → (∀ x, good x → safe (λ _, True) (body x)) → safe (λ _, True) (live_from n l i body).
Proof.
  induction n as [|n IH]; intros i body Hl Hb h HI; cbn [live_from]; destruct (h_lists h !! l) as [xs|] eqn:E; try done;
    (destruct (xs !! i) as [x|] eqn:Ex; [|done]); [done|].
  apply (safe_bind (λ _ : unit, True)); [apply Hb|by intros _ _; apply IH|done].
  pose proof (in_members h HI l xs Hl E) as HF. rewrite Forall_forall in HF. apply HF. by eapply elem_of_list_lookup_2.
Qed.
Lemma safe_live v body : good v → (∀ x, good x → safe (λ _, True) (body x)) → safe (λ _, True) (live_each v body).
Proof.
  intros Hv Hb. assert (safe (λ _, True) (let* xs := iter_val v in for_each xs body)) as Hi.
  { apply (safe_bind (Forall good)); [by apply safe_iter|]. intros xs Hxs. by eapply safe_for_each. }
  intros h HI. unfold live_each. destruct v as [| | | |s| |l]; try by apply Hi.
  destruct (h_lists h !! l); [|done]. by apply safe_live_from.
Qed.
Lemma safe_contains x v : safe (λ _, True) (contains x v).
Proof. intros h HI. unfold contains. destruct v as [| | | |s| |l]; try done. by destruct (h_lists h !! l). Qed.
Lemma safe_append v x : good v → good x → safe (λ _, True) (append v x).
Proof.
  intros Hv Hx h HI. unfold append. destruct v as [| | | |s| |l]; try done.
  destruct (h_lists h !! l) as [xs|] eqn:E; [|done]. split; [|done]. apply Inv_lset; [done|done|].
  apply Forall_app. split; [by eapply in_members|]. by repeat constructor.
Qed.
Lemma Forall_without x xs : Forall good xs → Forall good (without x xs).
Proof. intros H. apply Forall_forall. intros y Hy. apply elem_of_without in Hy as [Hy _]. by eapply Forall_forall in H. Qed.

Context (S : schema).

Lemma safe_getattr v p : good v → safe good (getattr S v p).
Proof.
  intros Hv h HI. unfold getattr. destruct v as [| | | | |o|]; try done.
  destruct (obj_prop S h o p) as [[]|] eqn:E; try by apply safe_read.
  apply (safe_bind good); [by apply safe_read| |done]. intros w Hw h' HI'.
  case_decide; (split; [done|]); by intros a [= <-].
Qed.
Ltac sb P := apply (safe_bind P).
Lemma safe_setattr f : ∀ v p w, good v → good w → safe (λ _, True) (setattr S f v p w).
Proof.
  induction f as [|f IH]; intros v p w Hv Hw h HI; cbn [setattr]; [done|].
  destruct v as [| | | | |o|]; try done.
  destruct (obj_prop S h o p) as [[q|q|q|q| |q|t c]|] eqn:Ek.
  - revert h HI Ek. intros h HI _. revert h HI. sb good; [by apply safe_read|]. intros cur Hcur.
    sb (λ _ : unit, True).
    { case_decide; [by apply safe_ret|]. sb good; [by apply safe_getattr|]. intros own Hown.
      sb good; [by apply safe_getattr|]. intros lst Hlst. sb (Forall good); [by apply safe_iter|]. intros xs Hxs.
      sb good; [by apply safe_new_list, Forall_without|]. intros. by apply safe_write. }
    intros _ _. sb (λ _ : unit, True); [by apply safe_write|]. intros _ _. sb good; [by apply safe_read|].
    intros now Hnow. case_decide; [by apply safe_ret|]. sb good; [by apply safe_read|]. intros lst Hlst.
    sb (λ _ : bool, True); [apply safe_contains|]. intros [] _; [by apply safe_ret|by apply safe_append].
  - revert h HI Ek. intros h HI _. revert h HI. sb good; [by apply safe_read|]. intros cur Hcur.
    sb (Forall good); [by apply safe_iter|]. intros xs Hxs.
    sb (λ _ : unit, True); [eapply safe_for_each; [done|]; intros; by apply IH|]. intros _ _.
    sb (Forall good); [by apply safe_iter|]. intros ys Hys.
    sb (λ _ : unit, True); [eapply safe_for_each; [done|]; intros; by apply safe_write|]. intros _ _. by apply safe_write.
  - revert h HI Ek. intros h HI _. revert h HI. sb good; [by apply safe_read|]. intros cur Hcur.
    sb (λ _ : unit, True); [case_decide; [by apply safe_ret|by apply safe_write]|]. intros _ _.
    sb (λ _ : unit, True); [by apply safe_write|]. intros _ _. sb good; [by apply safe_read|]. intros now Hnow.
    case_decide; [by apply safe_ret|]. sb (λ _ : unit, True); [by apply IH|]. intros _ _.
    sb good; [by apply safe_read|]. intros. by apply safe_write.
  - revert h HI Ek. intros h HI _. revert h HI. sb good; [by apply safe_read|]. intros cur Hcur.
    sb (Forall good); [by apply safe_iter|]. intros ps Hps.
    sb (λ _ : unit, True).
    { eapply safe_for_each; [done|]. intros x Hx. sb good; [by apply safe_getattr|]. intros lst Hlst.
      sb (Forall good); [by apply safe_iter|]. intros qs Hqs. sb good; [by apply safe_new_list, Forall_without|].
      intros fl Hfl. sb good; [by apply safe_read|]. intros. by apply safe_write. }
    intros _ _. sb (λ _ : unit, True); [|intros; by apply safe_write].
    apply safe_live; [done|]. intros r Hr. sb good; [by apply safe_read|]. intros lst Hlst.
    sb (λ _ : bool, True); [apply safe_contains|]. intros [] _; [by apply safe_ret|by apply safe_append].
  - by apply safe_write.
  - revert h HI Ek. intros h HI _. revert h HI. sb good; [by apply safe_read|]. intros cur Hcur.
    sb (Forall good); [by apply safe_iter|]. intros xs Hxs.
    sb (λ _ : unit, True); [eapply safe_for_each; [done|]; intros; by apply IH|]. intros _ _.
    sb (Forall good); [by apply safe_iter|]. intros ys Hys.
    sb (λ _ : unit, True); [eapply safe_for_each; [done|]; intros; by apply safe_write|]. intros _ _. by apply safe_write.
  - by apply IH.
  - by apply safe_write.
Qed.
Lemma safe_add f v p xs : good v → Forall good xs → safe (λ _, True) (add S f v p xs).
Proof.
  intros Hv Hxs h HI. unfold add. destruct v as [| | | | |o|]; try done.
  destruct (obj_prop S h o p) as [[q|q|q|q| |q|t c]|]; try done; revert h HI.
  - eapply safe_for_each; [done|]. intros. by apply safe_setattr.
  - eapply safe_for_each; [done|]. intros x Hx. sb good; [by apply safe_read|]. intros lst Hlst.
    sb (λ _ : bool, True); [apply safe_contains|]. intros b _.
    sb (λ _ : unit, True); [destruct b; [by apply safe_ret|by apply safe_append]|]. intros _ _.
    sb good; [by apply safe_read|]. intros. by apply safe_append.
  - eapply safe_for_each; [done|]. intros x Hx. sb (λ _ : unit, True); [by apply safe_setattr|]. intros _ _.
    sb good; [by apply safe_getattr|]. intros. by apply safe_append.
Qed.

Definition good_env (env : list (name * val)) : Prop := Forall (λ '(_, v), good v) env.
Lemma good_assoc env p v : good_env env → assoc p env = Some v → good v.
Proof.
  intros Henv. induction Henv as [|[k w] env Hk Henv IH]; cbn [assoc]; [done|].
  destruct (str_eqb p k); [by intros [= <-]|done].
Qed.
Lemma good_get env p : good_env env → good (env_get env p).
Proof. intros Henv. unfold env_get. destruct (assoc p env) eqn:E; [by eapply good_assoc|done]. Qed.
Lemma safe_step f v env s : good v → good_env env → safe (λ _, True) (run_step S f v env s).
Proof.
  intros Hv Henv. pose proof (good_get env) as Hg. destruct s as [p|p|p|p|p|]; cbn [run_step].
  - apply safe_setattr; auto.
  - sb (λ _ : unit, True); [by apply safe_write|]. intros _ _. apply safe_setattr; auto.
  - sb good; [by apply safe_new_list|]. intros l Hl. sb (λ _ : unit, True); [by apply safe_write|]. intros _ _.
    case_decide; [|apply safe_setattr; auto]. sb good; [by apply safe_new_list|]. intros. by apply safe_setattr.
  - case_decide; [|apply safe_setattr; auto]. sb good; [by apply safe_new_list|]. intros. by apply safe_setattr.
  - apply safe_write; [done|by apply Hg].
  - cbv zeta. sb (λ _ : unit, True); [by apply safe_write|]. intros _ _. sb (λ _ : unit, True); [by apply safe_write|]. intros _ _.
    sb (λ _ : unit, True); [by apply safe_write|]. intros _ _.
    repeat case_decide; first [by apply safe_raise|by apply safe_ret|apply safe_setattr; auto].
Qed.
Lemma bind_pos_good ps : ∀ pos b r x, bind_pos ps pos = (b, r, x) → Forall good pos → good_env ps →
  good_env b ∧ good_env r ∧ Forall good x.
Proof.
  induction ps as [|[p d] ps IH]; intros [|a pos] b r x; cbn [bind_pos];
    try by (intros [= <- <- <-] Hpos Hps; split_and!; [by constructor|done|done]).
  destruct (bind_pos ps pos) as [[b' r'] x'] eqn:E. intros [= <- <- <-] [Ha Hpos]%Forall_cons [Hd Hps]%Forall_cons.
  destruct (IH _ _ _ _ E Hpos Hps) as (? & ? & ?). split_and!; [by constructor|done..].
Qed.
Lemma bind_args_good ps pos kw env pos' kw' : bind_args ps pos kw = Some (env, pos', kw') →
  good_env ps → Forall good pos → good_env kw → good_env env ∧ Forall good pos' ∧ good_env kw'.
Proof.
  intros E Hps Hpos Hkw. unfold bind_args in E. destruct (bind_pos ps pos) as [[b r] x] eqn:Eb.
  destruct (existsb _ kw); [done|]. simplify_eq.
  destruct (bind_pos_good _ _ _ _ _ Eb Hpos Hps) as (? & Hr & ?). split_and!; [|done|].
  - apply Forall_app. split; [done|]. apply Forall_forall. intros [n v] ([p d] & [= -> ->] & Hin)%elem_of_list_fmap.
    destruct (assoc p kw) as [w|] eqn:Ea; simpl; [by apply (good_assoc kw p)|].
    unfold good_env in Hr. rewrite Forall_forall in Hr. by apply (Hr (p, d)).
  - apply Forall_forall. intros nv [_ Hin]%elem_of_list_filter. unfold good_env in Hkw. rewrite Forall_forall in Hkw. by apply Hkw.
Qed.
(** The defaults of the constructor parameters are neither objects nor
    lists. *)
Definition plain_defaults (cs : list cls) : Prop :=
  ∀ c p v, c ∈ cs → (p, v) ∈ c_params c → (∀ o, v ≠ VRef o) ∧ (∀ l, v ≠ VList l).
Lemma plain_good cs c : plain_defaults cs → c ∈ cs → good_env (c_params c).
Proof.
  intros Hp Hc. apply Forall_forall. intros [p v] Hin. destruct (Hp c p v Hc Hin). destruct v; naive_solver.
Qed.
Lemma safe_init f cs : plain_defaults cs → ∀ v pos kw, good v → Forall good pos → good_env kw →
  safe (λ _, True) (init_chain S f cs v pos kw).
Proof.
  induction cs as [|c cs IH]; intros Hp v pos kw Hv Hpos Hkw; cbn [init_chain].
  { destruct pos, kw; try by apply safe_raise. by apply safe_ret. }
  destruct (bind_args _ _ _) as [[[env pos'] kw']|] eqn:E; [|by apply safe_raise].
  destruct (bind_args_good _ _ _ _ _ _ E) as (? & ? & ?); [eapply plain_good; [done|left]|done..|].
  destruct (negb _ && _); [by apply safe_raise|].
  sb (λ _ : unit, True).
  { eapply (safe_for_each (λ _, True)); [by apply Forall_true|]. intros. by apply safe_step. }
  intros _ _. destruct (c_kw c); [|by apply safe_ret]. destruct (c_super_ok c); [|by apply safe_raise].
  apply IH; [|done..]. intros c' p' v' Hc'. apply Hp. by right.
Qed.
Lemma Inv_alloc h ck : Inv h → Inv (Heap (<[fresh_obj h := Obj ck ∅]> (h_objs h)) (h_lists h)) ∧ inside (fresh_obj h).
Proof.
  intros HI. assert (cls_of h0 (fresh_obj h) = None) as Hf.
  { destruct (cls_of h0 (fresh_obj h)) eqn:E; [|done]. pose proof (in_cls h HI (fresh_obj h)) as E2. rewrite E in E2.
    unfold cls_of in E2. rewrite fresh_obj_None in E2. by discriminate E2. }
  split; [|by right].
  assert (∀ o k, o ≠ fresh_obj h → slot (Heap (<[fresh_obj h := Obj ck ∅]> (h_objs h)) (h_lists h)) o k = slot h o k) as Hs.
  { intros o k Hne. unfold slot. simpl. by rewrite lookup_insert_ne. }
  destruct HI as [I1 I2 I3 I4 I5 I6]. split; try done.
  - intros o Ho. unfold cls_of. simpl. rewrite lookup_insert_ne; [by apply I1|]. intros <-. destruct Ho. congruence.
  - intros o k v Ho. destruct (decide (o = fresh_obj h)) as [->|Hne]; [|rewrite Hs by done; by apply I3].
    unfold slot. simpl. rewrite lookup_insert. simpl. by rewrite lookup_empty.
  - intros o k Ho. rewrite Hs; [by apply I5|]. intros ->. destruct Ho. by right.
Qed.
Lemma safe_construct f ck pos kw : plain_defaults (mro S ck) → Forall good pos → good_env kw →
  safe good (construct S f ck pos kw).
Proof.
  intros Hp Hpos Hkw h HI. unfold construct. destruct (find_cls S ck); [|done].
  destruct (Inv_alloc h ck HI) as [HI' Hin].
  apply (safe_bind (λ _ : unit, True)); [by apply safe_init| |done]. intros _ _. by apply safe_ret.
Qed.

(** *** The reader *)
Context (Hplain : ∀ ck, plain_defaults (mro S ck)) (pm : list (name * name)) (fuel : nat) (pf : pystr → option pystr) (base rdf : pystr).

Lemma safe_convert cur t : good cur → safe good (convert S fuel pf cur t).
Proof using Hplain.
  intros Hc h HI. assert (∀ v, good v → Inv h ∧ ∀ a, inl v = inl (B:=exn) a → good a) as Hv.
  { intros v Hv. split; [done|]. by intros a [= <-]. }
  assert (∀ e : exn, Inv h ∧ ∀ a : val, inr e = inl a → good a) as He by (intros e; split; [exact HI|by intros a]).
  unfold convert. destruct cur as [|b|z|r|s|o|l]; destruct t as [t|]; cbn [fst snd];
    try first [by apply He|by apply Hv].
  - destruct (ascii t); [|apply He]. destruct (parse_int t); [by apply Hv|apply He].
  - destruct (pf t); [by apply Hv|apply He].
  - destruct (cls_of h o); [|apply He]. apply safe_construct; [done| |by constructor|done]. by repeat constructor.
  - destruct (cls_of h o); [|apply He]. apply safe_construct; [done| |by constructor|done]. by repeat constructor.
  - apply safe_new_list; [|done]. apply Forall_forall. by intros x (? & -> & _)%elem_of_list_fmap.
Qed.
Lemma found_good o a h v : Inv h → inside o → find_attr S o a h = Found v → good v.
Proof.
  intros HI Ho. unfold find_attr. destruct (safe_getattr (VRef o) a Ho h HI) as [_ Hg].
  destruct (fst (getattr S (VRef o) a h)) as [w|] eqn:E.
  - intros [= <-]. by apply Hg.
  - destruct (special_name a); [done|]. destruct (cls_of h o); [|done]. by destruct (accessor_name S n a).
Qed.
Definition good_dict (d : dict) : Prop := Forall (λ '(_, v), good v) d.
Lemma safe_set_property d o e : good_dict d → inside o → safe (λ _, True) (set_property S fuel pf base rdf d o e).
Proof using Hplain.
  intros Hd Ho h HI. unfold set_property. set (a := after_last_dot _).
  destruct (rdf_attr rdf "resource" (e_attrs e)) as [[|c r]|]; simpl.
  - by destruct (find_attr S o a h).
  - destruct (c =? 35)%N.
    + unfold set_ref. destruct (find_attr S o a h) as [w| | |] eqn:E; try done.
      * destruct (assoc r d) as [v|] eqn:Ea; [|done]. assert (good v) as Hv by (by eapply good_assoc).
        destruct w; try done; [by apply safe_setattr|].
        destruct (match a with [] => false | _ => _ end); [done|]. apply safe_add; [done| |done]. by repeat constructor.
      * by destruct (assoc r d).
      * by destruct (assoc r d).
    + unfold set_enum. destruct (find_attr S o a h) as [w| | |] eqn:E; try done;
        destruct (rsplit1_1 (c :: r)); try done. by apply safe_setattr.
  - unfold set_text. destruct (find_attr S o a h) as [w| | |] eqn:E; try done.
    assert (good w) as Hw by (by eapply found_good).
    assert (safe (λ _ : unit, True) (let* v := convert S fuel pf w (e_text e) in setattr S fuel (VRef o) a v)) as Hs.
    { sb good; [by apply safe_convert|]. intros. by apply safe_setattr. }
    unfold swallow_type. destruct (Hs h HI) as [HI' _]. destruct (bind _ _ h) as [[[]|[]] h'] eqn:Eb; done.
Qed.
Lemma Inv_pass1 err evs : ∀ c d h, Inv h → good_dict d →
  Inv (snd (pass1 S pm fuel base rdf err evs c d h)) ∧ good_dict (snd (fst (pass1 S pm fuel base rdf err evs c d h))).
Proof using Hplain.
  induction evs as [|ev evs IH]; intros c d h HI Hd; [done|].
  assert (∀ k v d, good v → good_dict d → good_dict (dset k v d)) as Hset.
  { clear. intros k v d Hv Hd. induction Hd as [|[k' v'] d ? Hd IH]; cbn [dset]; [by repeat constructor|].
    destruct (str_eqb k k'); by constructor. }
  assert (safe good_dict (pass1_step S pm fuel base rdf c ev d)) as Hs.
  { unfold pass1_step. destruct ev as [e|e|]; try by apply safe_ret.
    destruct (in_base base e); [|by apply safe_ret]. destruct (uuid_of _ _) as [id|]; [|by apply safe_ret].
    destruct (assoc _ pm); [|by apply safe_ret]. sb good.
    - apply safe_construct; [done|by constructor|]. by repeat constructor.
    - intros o Ho. apply safe_ret. by apply Hset. }
  destruct (Hs h HI) as [HI' Hd'].
  destruct ev as [e|e|p v]; cbn [pass1]; try by apply IH.
  destruct (pass1_step _ _ _ _ _ _ _ _) as [[d'|x] h']; simpl in *; [apply IH; auto|done].
Qed.
Lemma Inv_pass2 d err evs : good_dict d → ∀ cur h, Inv h → (∀ v, cur = Some v → good v) →
  Inv (snd (pass2 S fuel pf base rdf d err evs cur h)).
Proof using Hplain.
  intros Hd. induction evs as [|ev evs IH]; intros cur h HI Hc; [done|]. cbn [pass2].
  assert (safe (λ c, ∀ v, c = Some v → good v) (pass2_step S fuel pf base rdf d cur ev)) as Hs.
  { unfold pass2_step. destruct cur as [v|], ev as [e|e|]; try by apply safe_ret.
    - destruct (in_base base e); [|by apply safe_ret].
      destruct (rdf_attr rdf "ID" (e_attrs e)), (rdf_attr rdf "about" (e_attrs e)); try by apply safe_ret.
      destruct v as [| | | | |o|]; try by apply safe_raise. sb (λ _ : unit, True).
      + apply safe_set_property; [done|]. by apply (Hc (VRef o)).
      + intros _ _. by apply safe_ret.
    - destruct (in_base base e); [|by apply safe_ret]. destruct (uuid_of _ _) as [id|]; [|by apply safe_ret].
      apply safe_ret. intros v Hv. by eapply good_assoc. }
  destruct (Hs h HI) as [HI' Hc']. destruct (pass2_step _ _ _ _ _ _ _ _ _) as [[c|x] h']; simpl in *; [apply IH; [done|by apply Hc']|done].
Qed.
Lemma Inv_read src d : good_dict d → Inv (snd (read S pm fuel pf base rdf src d h0)).
Proof using Hplain Hcl.
  intros Hd. pose proof Inv_start as HI. unfold read. destruct (skip_root _) as [evs|]; [|done].
  destruct (Inv_pass1 (s_error src) evs false d h0 HI Hd) as [HI1 Hd1].
  destruct (pass1 _ _ _ _ _ _ _ _ _ _) as [[[x|] d1] h1]; simpl in *; [done|].
  pose proof (Inv_pass2 d1 (s_error src) evs Hd1 None h1 HI1) as HI2.
  destruct (pass2 _ _ _ _ _ _ _ _ _ _) as [x h2]. by apply HI2.
Qed.
End region.
