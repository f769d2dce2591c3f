(** Heap invariants that only restrict which attributes may be written. *)
From Coq Require Import String.
From stdpp Require Import prelude gmap.
From Verif Require Import PyStr PyHeap Schema Assoc AssocSpec HeapFacts Reader ReaderSpec.

(** The names a property's code assigns to besides its own. *)
Definition other_name (k : prop) : option name :=
  match k with
  | POneMany q | PManyOne q | POneOne q | PManyMany q | PManyOneDbl q | PAlias q _ => Some q
  | PPrivate => None
  end.

Section frame.
Context (S : schema) (I : heap → Prop) (W : nat → key → Prop)
  (HW : ∀ o k v h, I h → W o k → I (hset o k v h))
  (HL : ∀ l xs h, I h → I (lset l xs h))
  (HA : ∀ h ck, I h → I (Heap (<[fresh_obj h := Obj ck ∅]> (h_objs h)) (h_lists h)) ∧ ∀ k, W (fresh_obj h) k)
  (Hpriv : ∀ o p, W o (Priv p))
  (Hname : ∀ c p k q o, lookup_prop S c p = Some k → other_name k = Some q → W o (key_of q)).

Definition pres {A} (m : M A) : Prop := ∀ h, I h → I (snd (m h)).
Lemma pres_ret {A} (a : A) : pres (ret a).
Proof using. by intros h. Qed.
Lemma pres_raise {A} e : pres (raise (A:=A) e).
Proof using. by intros h. Qed.
Lemma pres_bind {A B} (m : M A) (f : A → M B) : pres m → (∀ a, pres (f a)) → pres (bind m f).
Proof using.
  intros Hm Hf h HI. unfold bind. specialize (Hm h HI). destruct (m h) as [[a|e] h']; [by apply Hf|done].
Qed.
Lemma pres_for_each {A} (xs : list A) body : (∀ x, pres (body x)) → pres (for_each xs body).
Proof using.
  intros Hb. induction xs as [|x xs IH]; cbn [for_each]; [by apply pres_ret|]. by apply pres_bind.
Qed.
Lemma pres_read v k : pres (read_key v k).
Proof using. intros h HI. unfold read_key. destruct v; try done. by destruct (slot h o k). Qed.
Lemma pres_write v k w : (∀ o, v = VRef o → W o k) → pres (write_key v k w).
Proof using HW.
  intros Hw h HI. unfold write_key. destruct v; try done. destruct (h_objs h !! o); [|done]. by apply HW, Hw.
Qed.
Lemma pres_new_list xs : pres (new_list xs).
Proof using HL. intros h HI. by apply HL. Qed.
Lemma pres_iter v : pres (iter_val v).
Proof using. intros h HI. unfold iter_val. destruct v; try done. by destruct (h_lists h !! l). Qed.
Lemma pres_live v body : (∀ x, pres (body x)) → pres (live_each v body).
Proof using.
  intros Hb. assert (∀ n l i, pres (live_from n l i body)) as Hl.
  { induction n as [|n IH]; intros l i h HI; cbn [live_from]; destruct (h_lists h !! l) as [xs|]; try done;
      destruct (xs !! i); try done. by apply pres_bind. }
  intros h HI. unfold live_each. destruct v; try (by apply pres_bind; [apply pres_iter|intros; by apply pres_for_each|]).
  destruct (h_lists h !! l); [|done]. by apply Hl.
Qed.
Lemma pres_contains x v : pres (contains x v).
Proof using. intros h HI. unfold contains. destruct v; try done. by destruct (h_lists h !! l). Qed.
Lemma pres_append v x : pres (append v x).
Proof using HL. intros h HI. unfold append. destruct v; try done. destruct (h_lists h !! l); [|done]. by apply HL. Qed.
Lemma pres_getattr v p : pres (getattr S v p).
Proof using.
  intros h HI. unfold getattr. destruct v; try done. destruct (obj_prop S h o p) as [[]|]; try by apply pres_read.
  apply pres_bind; [apply pres_read| |done]. intros w h' HI'. by case_decide.
Qed.
Ltac go := first
  [ apply pres_ret | apply pres_raise | apply pres_read | apply pres_new_list | apply pres_iter | apply pres_contains
  | apply pres_append | apply pres_getattr
  | apply pres_bind; [|intros ?] | apply pres_for_each; intros ? | apply pres_live; intros ? | case_decide
  | match goal with |- pres (if ?b then _ else _) => destruct b end
  | apply pres_write; intros ? _; by apply Hpriv ].
Lemma pres_setattr f : ∀ v p w, (∀ o, v = VRef o → W o (key_of p)) → pres (setattr S f v p w).
Proof using HW HL Hpriv Hname.
  induction f as [|f IH]; intros v p w Hw h HI; cbn [setattr]; [done|].
  destruct v as [| | | | |o|]; try done.
  destruct (obj_prop S h o p) as [k|] eqn:Ek; [|apply pres_write; [|done]; intros o' Ho; by apply Hw].
  assert (∀ q, other_name k = Some q → ∀ o', W o' (key_of q)) as Hq.
  { unfold obj_prop in Ek. destruct (cls_of h o) as [c|]; [|done]. intros q Hq o'. by eapply Hname. }
  clear Ek. destruct k as [q|q|q|q| |q|t c]; revert h HI.
  - repeat go.
  - repeat go. apply IH. intros. by apply Hq.
  - repeat go. apply IH. intros. by apply Hq.
  - repeat go.
  - repeat go.
  - repeat go. apply IH. intros. by apply Hq.
  - apply IH. intros. by apply Hq.
Qed.
Lemma pres_add f v p xs : pres (add S f v p xs).
Proof using HW HL Hpriv Hname.
  intros h HI. unfold add. destruct v as [| | | | |o|]; try done.
  destruct (obj_prop S h o p) as [k|] eqn:Ek; [|done].
  assert (∀ q, other_name k = Some q → ∀ o', W o' (key_of q)) as Hq.
  { unfold obj_prop in Ek. destruct (cls_of h o) as [c|]; [|done]. intros q Hq o'. by eapply Hname. }
  destruct k as [q|q|q|q| |q|t c]; try done; clear Ek; revert h HI; repeat go; apply pres_setattr; intros; by apply Hq.
Qed.
Lemma pres_init f cs : ∀ o pos kw, (∀ k, W o k) → pres (init_chain S f cs (VRef o) pos kw).
Proof using HW HL Hpriv Hname.
  induction cs as [|c cs IH]; intros o pos kw Ho; cbn [init_chain].
  { destruct pos, kw; apply pres_ret || apply pres_raise. }
  destruct (bind_args _ _ _) as [[[env pos'] kw']|]; [|apply pres_raise].
  destruct (negb _ && _); [apply pres_raise|]. apply pres_bind.
  - apply pres_for_each. intros s. assert (∀ p w, pres (setattr S f (VRef o) p w)) as Hs.
    { intros p w. apply pres_setattr. by intros ? [= <-]. }
    destruct s; cbn [run_step]; cbv zeta; repeat first [apply Hs | go].
  - intros _. destruct (c_kw c); [|apply pres_ret]. destruct (c_super_ok c); [by apply IH|apply pres_raise].
Qed.
Lemma pres_construct f ck pos kw : pres (construct S f ck pos kw).
Proof using HW HL HA Hpriv Hname.
  intros h HI. unfold construct. destruct (find_cls S ck); [|done].
  destruct (HA h ck HI) as [HI' HWf]. apply pres_bind; [by apply pres_init| |done]. intros ?. apply pres_ret.
Qed.

Context (pm : list (name * name)) (fuel : nat) (pf : pystr → option pystr) (base rdf : pystr).
Lemma pres_convert cur t : pres (convert S fuel pf cur t).
Proof using HW HL HA Hpriv Hname.
  intros h HI. unfold convert. destruct cur as [|b|z|r|s|o|l]; destruct t as [t|]; try done.
  - destruct (ascii t); [|done]. by destruct (parse_int t).
  - by destruct (pf t).
  - destruct (cls_of h o); [|done]. by apply pres_construct.
  - destruct (cls_of h o); [|done]. by apply pres_construct.
  - by apply pres_new_list.
Qed.
Lemma pres_set_property d o e :
  W o (key_of (after_last_dot (local base e))) → pres (set_property S fuel pf base rdf d o e).
Proof using HW HL HA Hpriv Hname.
  intros Hw h HI. unfold set_property. set (a := after_last_dot _) in *.
  assert (∀ w, pres (setattr S fuel (VRef o) a w)) as Hs.
  { intros w. apply pres_setattr. by intros ? [= <-]. }
  destruct (rdf_attr rdf "resource" (e_attrs e)) as [[|c r]|]; simpl.
  - by destruct (find_attr S o a h).
  - destruct (c =? 35)%N.
    + unfold set_ref. destruct (find_attr S o a h) as [w| | |]; try done; destruct (assoc r d) as [v|]; try done.
      destruct w; try done; [by apply Hs|].
      destruct (match a with [] => false | _ => _ end); [done|]. by apply pres_add.
    + unfold set_enum. destruct (find_attr S o a h) as [w| | |]; try done; destruct (rsplit1_1 (c :: r)); try done. by apply Hs.
  - unfold set_text. destruct (find_attr S o a h) as [w| | |]; try done.
    assert (pres (let* v := convert S fuel pf w (e_text e) in setattr S fuel (VRef o) a v)) as Hc.
    { apply pres_bind; [apply pres_convert|done]. }
    unfold swallow_type. specialize (Hc h HI). destruct (bind _ _ h) as [[[]|[]] h'] eqn:Eb; done.
Qed.
Lemma pres_pass1 err evs : ∀ c d h, I h → I (snd (pass1 S pm fuel base rdf err evs c d h)).
Proof using HW HL HA Hpriv Hname.
  induction evs as [|ev evs IH]; intros c d h HI; [done|].
  assert (pres (pass1_step S pm fuel base rdf c ev d)) as Hs.
  { unfold pass1_step. destruct ev as [e|e|]; try apply pres_ret. destruct (in_base base e); [|apply pres_ret].
    destruct (uuid_of _ _); [|apply pres_ret]. destruct (assoc _ pm); [|apply pres_ret].
    apply pres_bind; [apply pres_construct|]. intros. apply pres_ret. }
  specialize (Hs h HI).
  destruct ev as [e|e|p v]; cbn [pass1]; try by apply IH.
  destruct (pass1_step _ _ _ _ _ _ _ _) as [[d'|x] h']; simpl in *; [by apply IH|done].
Qed.
Lemma pres_run2 d evs :
  (∀ e, EEnd e ∈ evs → is_property base rdf e (after_last_dot (local base e)) →
     ∀ o, W o (key_of (after_last_dot (local base e)))) →
  ∀ cur, pres (run2 base rdf S fuel pf d evs cur).
Proof using HW HL HA Hpriv Hname.
  induction evs as [|ev evs IH]; intros He cur; cbn [run2]; [apply pres_ret|].
  apply pres_bind; [|intros; apply IH; intros e Hin; apply He; by right].
  unfold pass2_step. destruct cur as [v|], ev as [e|e|]; try apply pres_ret.
  - destruct (in_base base e) eqn:Eb; [|apply pres_ret].
    destruct (rdf_attr rdf "ID" (e_attrs e)) eqn:E1, (rdf_attr rdf "about" (e_attrs e)) eqn:E2; try apply pres_ret.
    destruct v as [| | | | |o|]; try apply pres_raise. apply pres_bind; [|intros; apply pres_ret].
    apply pres_set_property. apply He; [left|]. by split_and!.
  - destruct (in_base base e); [|apply pres_ret]. destruct (uuid_of _ _); apply pres_ret.
Qed.
End frame.

(** Objects keep their classes. *)
Definition classes_kept (h h' : heap) : Prop := ∀ o, is_Some (cls_of h o) → cls_of h' o = cls_of h o.
Lemma cls_alloc h ck o : o ≠ fresh_obj h →
  cls_of (Heap (<[fresh_obj h := Obj ck ∅]> (h_objs h)) (h_lists h)) o = cls_of h o.
Proof. intros. unfold cls_of. simpl. by rewrite lookup_insert_ne. Qed.
Lemma slot_alloc h ck o k : o ≠ fresh_obj h →
  slot (Heap (<[fresh_obj h := Obj ck ∅]> (h_objs h)) (h_lists h)) o k = slot h o k.
Proof. intros. unfold slot. simpl. by rewrite lookup_insert_ne. Qed.
Lemma fresh_obj_alive h o : is_Some (cls_of h o) → o ≠ fresh_obj h.
Proof. intros [? E] ->. unfold cls_of in E. by rewrite fresh_obj_None in E. Qed.

Lemma run2_classes base rdf S fuel pf d evs cur h h0 :
  classes_kept h0 h → classes_kept h0 (snd (run2 base rdf S fuel pf d evs cur h)).
Proof.
  intros HI. apply (pres_run2 S (classes_kept h0) (λ _ _, True)); try done.
  - intros o k v h1 H1 _ o' Ho'. rewrite cls_hset. by apply H1.
  - intros h1 ck H1. split; [|done]. intros o' Ho'. rewrite cls_alloc; [by apply H1|].
    apply fresh_obj_alive. by rewrite (H1 o' Ho').
Qed.

(** A public attribute that no statement assigns to keeps its value on all
    objects. *)
Definition pub_kept (n : name) (h h' : heap) : Prop := ∀ o, is_Some (cls_of h o) →
  is_Some (cls_of h' o) ∧ slot h' o (Pub n) = slot h o (Pub n).
Lemma run2_pub base rdf S fuel pf d evs cur h h0 n :
  (∀ c p k q, lookup_prop S c p = Some k → other_name k = Some q → q ≠ n) →
  (∀ e, EEnd e ∈ evs → ¬ is_property base rdf e n) → pub_kept n h0 h →
  pub_kept n h0 (snd (run2 base rdf S fuel pf d evs cur h)).
Proof.
  intros Hn He HI.
  assert (∀ q, q ≠ n → key_of q ≠ Pub n) as Hk.
  { intros q Hq. unfold key_of. repeat case_match; congruence. }
  apply (pres_run2 S (pub_kept n h0) (λ o k, is_Some (cls_of h0 o) → k ≠ Pub n)); try done.
  - intros o k v h1 H1 Hw o' Ho'. rewrite cls_hset. destruct (H1 o' Ho') as [? E]. split; [done|].
    rewrite slot_hset_ne; [done|]. intros [= -> ->]. by apply Hw.
  - intros h1 ck H1. split.
    + intros o' Ho'. destruct (H1 o' Ho') as [Hc E]. pose proof (fresh_obj_alive _ _ Hc).
      by rewrite cls_alloc, slot_alloc.
    + intros k Hc. destruct (H1 _ Hc) as [Hc' _]. by apply fresh_obj_alive in Hc'.
  - intros c p k q o Hp Hq _. eapply Hk, Hn; eauto.
  - intros e Hin Hp o _. apply Hk. intros E. apply (He e Hin). by rewrite E in Hp.
Qed.
