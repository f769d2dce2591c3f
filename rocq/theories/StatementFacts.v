(** The second pass as a sequence of assignments. *)
From Coq Require Import String.
From stdpp Require Import prelude gmap.
From Verif Require Import PyStr PyHeap Schema Assoc AssocSpec HeapFacts AssocFacts CtorFacts Reader ReaderSpec ReaderFacts.

Definition known (d : dict) (id : pystr) : bool := match assoc id d with Some _ => true | None => false end.

Section exec.
Context (base rdf : pystr) (S : schema) (pm : list (name * name)) (fuel : nat) (pf : pystr → option pystr).
Notation statements := (statements base rdf).
Notation run2 := (run2 base rdf S fuel pf).

Definition exec1 (d : dict) (st : pystr * elem) : M unit :=
  match assoc st.1 d with
  | Some (VRef o) => set_property S fuel pf base rdf d o st.2
  | _ => raise Unmodelled
  end.
Definition exec (d : dict) (sts : list (pystr * elem)) : M unit := for_each sts (exec1 d).

Lemma exec_app d a b h : exec d (a ++ b) h = (exec d a ;;; exec d b) h.
Proof.
  unfold exec. revert h. induction a as [|st a IH]; intros h; [done|]. cbn [app for_each]. unfold bind in *.
  destruct (exec1 d st h) as [[[]|x] h']; [apply IH|done].
Qed.
Definition obj_of (d : dict) (cur : option pystr) : option val := cur ≫= λ id, assoc id d.
Lemma run2_exec d evs : ∀ cur, (∀ id, cur = Some id → is_Some (assoc id d)) → ∀ h,
  (let* _ := run2 d evs (obj_of d cur) in ret tt) h = exec d (statements (known d) cur evs) h.
Proof.
  induction evs as [|ev evs IH]; intros cur Hc h; [done|].
  cbn [ReaderSpec.statements ReaderSpec.run2].
  assert (∀ cur h, (∀ id, cur = Some id → is_Some (assoc id d)) → ∀ m, m = ret (obj_of d cur) →
    (let* _ := let* c := m in run2 d evs c in ret tt) h = exec d (statements (known d) cur evs) h) as Hstep.
  { intros cur' h' Hc' m ->. rewrite <- IH by done. done. }
  destruct cur as [id|].
  - destruct (Hc id eq_refl) as [v Hv].
    assert (obj_of d (Some id) = Some v) as Ho by done.
    destruct ev as [e|e|p w]; [by apply Hstep; [done|by rewrite Ho]| |by apply Hstep; [done|by rewrite Ho]].
    destruct (in_base base e) eqn:Eb; [|apply Hstep; [done|]; unfold pass2_step; rewrite Ho; by rewrite Eb].
    destruct (has_id rdf e) eqn:Eh.
    { apply Hstep; [done|]. unfold pass2_step. rewrite Ho, Eb. unfold has_id in Eh.
      destruct (rdf_attr rdf "ID" (e_attrs e)), (rdf_attr rdf "about" (e_attrs e)); done. }
    unfold exec. cbn [for_each]. fold (exec d). unfold exec1 at 1. cbn [fst snd]. rewrite Hv, Ho.
    unfold pass2_step. rewrite Eb. unfold has_id in Eh.
    destruct (rdf_attr rdf "ID" (e_attrs e)), (rdf_attr rdf "about" (e_attrs e)); try done.
    destruct v as [| | | | |o|]; try done. unfold bind at 1 2 3 4.
    destruct (set_property S fuel pf base rdf d o e h) as [[[]|x] h'] eqn:Es; [|done].
    cbn [ret]. rewrite <- Ho. specialize (IH (Some id) Hc h'). unfold exec in IH. rewrite <- IH. done.
  - destruct ev as [e|e|p w]; [|by apply Hstep..]. apply Hstep.
    + unfold opens. intros id. destruct (in_base base e); [|done]. destruct (uuid_of rdf (e_attrs e)) as [i|]; [|done].
      unfold known. destruct (assoc i d) eqn:E; [|done]. intros [= <-]. by eexists.
    + unfold pass2_step, opens. cbn [obj_of mbind option_bind]. destruct (in_base base e); [|done].
      destruct (uuid_of rdf (e_attrs e)) as [i|]; [|done]. unfold known. destruct (assoc i d) eqn:E; cbn [obj_of mbind option_bind]; by rewrite ?E.
Qed.
Lemma pass2_exec d err evs h : pass2 S fuel pf base rdf d err evs None h =
  match exec d (statements (known d) None evs) h with
  | (inl _, h') => (if err then Some ParseError else None, h')
  | (inr x, h') => (Some x, h')
  end.
Proof.
  rewrite <- run2_exec by done. rewrite pass2_run. cbn [obj_of mbind option_bind]. unfold bind.
  by destruct (run2 d evs None h) as [[]].
Qed.
Lemma reads_exec err root evs d h : reads base rdf S pm fuel pf err root evs d h =
  match pass1 S pm fuel base rdf err evs false d h with
  | (None, d', h1) =>
      match exec d' (statements (known d') None evs) h1 with
      | (inl _, h') => (if err then Some ParseError else None, d', h')
      | (inr x, h') => (Some x, d', h')
      end
  | r => r
  end.
Proof.
  rewrite read_unfold. destruct (pass1 _ _ _ _ _ _ _ _ _ _) as [[[x|] d'] h1]; [done|]. rewrite pass2_exec.
  by destruct (exec _ _ _) as [[]].
Qed.
End exec.
