(** When a client statement is admissible: it links the two ends of one
    association, and what it says about the objects involved is true of the
    graph it is applied to. *)
From Coq Require Import String.
From stdpp Require Import prelude gmap.
From Verif Require Import PyStr PyHeap Schema Assoc AssocSpec History.

(** The object has the attribute behind property [p]. *)
Definition has_slot (h : heap) (o : nat) (p : name) : Prop := is_Some (slot h o (Priv p)).
(** An ordinary attribute name: not starting with an underscore. *)
Definition public_name (p : name) : Prop := key_of p = Pub p.
Definition not_list (v : val) : Prop := ∀ l, v ≠ VList l.

Section adm.
Context (S : schema).

(** [v] can be the value of the single reference [x.p] with inverse [q]. *)
Definition fits_one_many (h : heap) (x : nat) (p q : name) (v : val) : Prop :=
  v = VNone ∨ ∃ t ys, v = VRef t ∧ ends_one_many (pkind S h) x p t q ∧ view h t (Priv q) = Some (OL ys).
Definition fits_one_one (h : heap) (x : nat) (p q : name) (v : val) : Prop :=
  v = VNone ∨ ∃ y, v = VRef y ∧ ends_one_one (pkind S h) x p y q ∧ has_slot h y q.

(** [x.p = v]. *)
Definition adm_set (h : heap) (x : nat) (p : name) (v : val) : Prop :=
  match pkind S h x p with
  | None => is_Some (cls_of h x) ∧ public_name p ∧ not_list v
  | Some PPrivate => not_list v
  | Some (POneMany q) => has_slot h x p ∧ fits_one_many h x p q v
  | Some (POneOne q) => has_slot h x p ∧ fits_one_one h x p q v
  | Some (PAlias p2 _) =>
      has_slot h x p2 ∧ ∃ q, pkind S h x p2 = Some (POneMany q) ∧ fits_one_many h x p2 q v
  | _ => False
  end.

(** [t.q = [ys...]]: the members are distinct and not owned by another object;
    a many-to-many collection has to be empty before. *)
Definition adm_set_list (h : heap) (t : nat) (q : name) (ys : list nat) : Prop :=
  match pkind S h t q with
  | None => is_Some (cls_of h t) ∧ public_name q
  | Some (PManyOne p) =>
      has_slot h t q ∧ NoDup ys ∧
      ∀ y, y ∈ ys → pkind S h y p = Some (POneMany q) ∧
        (view h y (Priv p) = Some (OV VNone) ∨ view h y (Priv p) = Some (OV (VRef t)))
  | Some (PManyMany p) =>
      view h t (Priv q) = Some (OL []) ∧ NoDup ys ∧
      ∀ y, y ∈ ys → ends_many_many (pkind S h) t q y p ∧ ∃ xs, view h y (Priv p) = Some (OL xs)
  | _ => False
  end.

(** [t.addQ(ys...)]: on many-to-many collections only new members. *)
Definition adm_add (h : heap) (t : nat) (q : name) (ys : list nat) : Prop :=
  match pkind S h t q with
  | Some (PManyOne p') =>
      (∃ xs, view h t (Priv q) = Some (OL xs)) ∧
      ∃ p, ∀ y, y ∈ ys → ends_one_many (pkind S h) y p t q ∧ resolves (pkind S h) y p' p ∧ has_slot h y p
  | Some (PManyMany p) =>
      ∃ ps, view h t (Priv q) = Some (OL ps) ∧ NoDup ys ∧
      ∀ y, y ∈ ys → ends_many_many (pkind S h) t q y p ∧ VRef y ∉ ps ∧ ∃ xs, view h y (Priv p) = Some (OL xs)
  | _ => False
  end.

(** [t.removeQ(ys...)]: on many-to-many collections only members. *)
Definition adm_remove (h : heap) (t : nat) (q : name) (ys : list nat) : Prop :=
  match pkind S h t q with
  | Some (PManyOne p') =>
      ∃ p, ∀ y, y ∈ ys → pkind S h y p = Some (POneMany q) ∧ resolves (pkind S h) y p' p ∧ has_slot h y p
  | Some (PManyMany p) =>
      ∃ ps, view h t (Priv q) = Some (OL ps) ∧ NoDup ys ∧ ∀ y, y ∈ ys → VRef y ∈ ps
  | _ => False
  end.

(** A list the constructor's caller wrote as a list display. *)
Definition display (h : heap) (v : val) (ys : list nat) : Prop :=
  ∃ l, v = VList l ∧ h_lists h !! l = Some (map VRef ys) ∧ ∀ o k, slot h o k ≠ Some (VList l).

(** A constructor statement applied to the new object [o]: the reference it
    initialises has not been set yet, and the argument given for it (if any) is
    an admissible assignment once the slot is there. *)
Definition blank_slot (h : heap) (o : nat) (p : name) (none : ov) : Prop :=
  view h o (Priv p) = None ∨ view h o (Priv p) = Some none.
Definition adm_step (h : heap) (o : nat) (env : list (name * val)) (s : step) : Prop :=
  match s with
  | SAttr p => pkind S h o p = None ∧ public_name p ∧ not_list (env_get env p)
  | SOne p =>
      blank_slot h o p (OV VNone) ∧
      (match pkind S h o p with Some (POneMany _) | Some (POneOne _) | Some PPrivate => True | _ => False end) ∧
      adm_set (hset o (Priv p) VNone h) o p (env_get env p)
  | SMany p =>
      blank_slot h o p (OL []) ∧
      let h1 := hset o (Priv p) (VList (fresh_list h)) (lset (fresh_list h) [] h) in
      match pkind S h o p with
      | Some (PManyOne _) | Some (PManyMany _) =>
          env_get env p = VNone ∨ ∃ ys, display h (env_get env p) ys ∧ adm_set_list h1 o p ys
      | Some (PManyOneDbl _) => env_get env p = VNone
      | _ => False
      end
  | SPlainMany p =>
      pkind S h o p = None ∧ public_name p ∧ (env_get env p = VNone ∨ ∃ ys, display h (env_get env p) ys)
  | SPriv p => pkind S h o p = Some PPrivate ∧ not_list (env_get env p)
  | SImpedance => ∃ q c1 c2,
      blank_slot h o (u "PerLengthImpedance") (OV VNone) ∧
      pkind S h o (u "PerLengthImpedance") = Some (POneMany q) ∧
      pkind S h o (u "SequenceImpedance") = Some (PAlias (u "PerLengthImpedance") c1) ∧
      pkind S h o (u "PhaseImpedance") = Some (PAlias (u "PerLengthImpedance") c2) ∧
      (∀ p, p ∈ [u "SequenceImpedance"; u "PhaseImpedance"; u "PerLengthImpedance"] →
         fits_one_many h o (u "PerLengthImpedance") q (env_get env p)) ∧
      (∀ p p', p ∈ [u "SequenceImpedance"; u "PhaseImpedance"; u "PerLengthImpedance"] →
         p' ∈ [u "SequenceImpedance"; u "PhaseImpedance"; u "PerLengthImpedance"] →
         env_get env p ≠ VNone → env_get env p' ≠ VNone → p = p')
  end.

(** All statements of a constructor, each in the state it is executed in. *)
Fixpoint adm_steps (fuel : nat) (h : heap) (o : nat) (env : list (name * val)) (ss : list step) : Prop :=
  match ss with
  | [] => True
  | s :: r => adm_step h o env s ∧
      ∀ h', run_step S fuel (VRef o) env s h = (inl tt, h') → adm_steps fuel h' o env r
  end.
Fixpoint adm_chain (fuel : nat) (h : heap) (o : nat) (cs : list cls) (pos : list val) (kw : list (name * val)) : Prop :=
  match cs with
  | [] => pos = [] ∧ kw = []
  | c :: r =>
      ∃ env pos' kw', bind_args (c_params c) pos kw = Some (env, pos', kw') ∧
        (c_kw c = false → pos' = [] ∧ kw' = []) ∧
        adm_steps fuel h o env (c_steps c) ∧
        (c_kw c = true → c_super_ok c = true ∧
          ∀ h', for_each (c_steps c) (run_step S fuel (VRef o) env) h = (inl tt, h') →
            adm_chain fuel h' o r pos' kw')
  end.

Definition adm_op (fuel : nat) (h : heap) (c : op) : Prop :=
  match c with
  | ONew ck kw =>
      is_Some (find_cls S ck) ∧
      ∀ vs h1, eval_kw kw h = (inl vs, h1) →
        adm_chain fuel (Heap (<[fresh_obj h1 := Obj ck ∅]> (h_objs h1)) (h_lists h1)) (fresh_obj h1) (mro S ck) [] vs
  | OSet o p v => adm_set h o p v
  | OSetList o p ys => adm_set_list h o p ys
  | OAdd o p ys => adm_add h o p ys
  | ORemove o p ys => adm_remove h o p ys
  end.

(** Every statement admissible in the state it is executed in. *)
Fixpoint adm_ops (fuel : nat) (h : heap) (cs : list op) : Prop :=
  match cs with
  | [] => True
  | c :: r => adm_op fuel h c ∧ ∀ h', run_op S fuel c h = (inl tt, h') → adm_ops fuel h' r
  end.
End adm.

(** Mutual consistency as a caller sees it: reading both ends of an
    association. *)
Record Mutual (S : schema) (h : heap) : Prop := {
  mu_one_many : ∀ x p t q w ys, ends_one_many (pkind S h) x p t q →
    view h x (Priv p) = Some w → view h t (Priv q) = Some (OL ys) →
    (w = OV (VRef t) ↔ VRef x ∈ ys);
  mu_nodup : ∀ t q p ys, pkind S h t q = Some (PManyOne p) → view h t (Priv q) = Some (OL ys) → NoDup ys;
  mu_one_one : ∀ x p y q v w, ends_one_one (pkind S h) x p y q →
    view h x (Priv p) = Some v → view h y (Priv q) = Some w →
    (v = OV (VRef y) ↔ w = OV (VRef x));
  mu_many_many : ∀ x p y q ps qs, ends_many_many (pkind S h) x p y q →
    view h x (Priv p) = Some (OL ps) → view h y (Priv q) = Some (OL qs) →
    (VRef y ∈ ps ↔ VRef x ∈ qs);
  mu_mm_nodup : MMNoDup (pkind S h) (view h);
  mu_unshared : ∀ o k o' k' l, slot h o k = Some (VList l) → slot h o' k' = Some (VList l) → o = o' ∧ k = k'
}.

(** No association is its own inverse. *)
Definition distinct_ends (S : schema) : Prop :=
  ∀ c p, lookup_prop S c p ≠ Some (POneOne p) ∧ lookup_prop S c p ≠ Some (PManyMany p).
