(** Vocabulary for the properties of the log of cimread. *)
From Coq Require Import String.
From stdpp Require Import prelude gmap.
From Verif Require Import PyStr PyHeap Schema Assoc Reader ReaderSpec VocabSpec ReaderLog.

(** The tags and identifiers of the messages of one kind, in order. *)
Definition no_module (l : list message) : list (pystr * pystr) := omap (λ m, match m with MNoModule t i => Some (t, i) | _ => None end) l.
Definition no_object (l : list message) : list (pystr * pystr) := omap (λ m, match m with MNoObject t i => Some (t, i) | _ => None end) l.
Definition counts (l : list message) : list (pystr * nat) := omap (λ m, match m with MCount t n => Some (t, n) | _ => None end) l.
(** What is reported of a text, 0 when nothing is. *)
Definition count_of (t : pystr) (l : list message) : nat := default 0 (assoc t (counts l)).
Definition is_count (m : message) : bool := match m with MCount _ _ => true | _ => false end.
(** The messages of the summary. *)
Definition final (m : message) : bool := match m with MCount _ _ | MCreated _ | MEnd => true | _ => false end.

(** The read of a document, and what it logs. *)
Definition reads_log (base rdf : pystr) (S : schema) (pm : list (name * name)) (fuel : nat) (pf : pystr → option pystr)
    (err : bool) (root : elem) (evs : list event) (d : dict) (h : heap) : list message :=
  read_log S pm fuel pf base rdf (Source (EStart root :: evs) err) d h.

(** [P] holds of [n] numbers. *)
Definition holds_of (P : nat → Prop) (n : nat) : Prop := ∃ ks, NoDup ks ∧ (∀ k, k ∈ ks ↔ P k) ∧ length ks = n.
(** How often a message is logged. *)
Definition logged (m : message) (l : list message) (n : nat) : Prop := holds_of (λ k, l !! k = Some m) n.
(** 'C' has not attribute 'a' *)
Definition has_not (c a : pystr) : pystr := u "'" ++ c ++ u "' has not attribute '" ++ a ++ u "'".

Section vocabulary.
Context (base rdf : pystr).
(** The object elements of classes that are not in the package map, by tag and
    identifier, in document order (of their closing tags). *)
Definition unlocated (pm : list (name * name)) (evs : list event) : list (pystr * pystr) :=
  omap (λ ev, match ev with
    | EEnd e => if in_base base e then
                  id ← uuid_of rdf (e_attrs e); match assoc (local base e) pm with None => Some (local base e, id) | Some _ => None end
                else None
    | _ => None
    end) evs.
(** The object elements outside known objects whose identifiers are not known. *)
Fixpoint unopened (known : pystr → bool) (cur : option pystr) (evs : list event) : list (pystr * pystr) :=
  match evs with
  | [] => []
  | ev :: r =>
      match cur, ev with
      | None, EStart e =>
          (if in_base base e then
             match uuid_of rdf (e_attrs e) with Some id => if known id then [] else [(local base e, id)] | None => [] end
           else []) ++ unopened known (opens base rdf known e) r
      | Some _, EEnd e => if in_base base e && has_id rdf e then unopened known None r else unopened known cur r
      | _, _ => unopened known cur r
      end
  end.
(** [hasattr(o, a)]: a value is stored, or the class has a method or other name. *)
Definition has_attr (S : schema) (h : heap) (o : nat) (a : name) : Prop :=
  (∃ v, fst (getattr S (VRef o) a h) = inl v) ∨ reserved a ∨
  ∃ ck, cls_of h o = Some ck ∧ method_of S ck a.
(** The name of the class of [o]. *)
Definition class_named (S : schema) (h : heap) (o : nat) (n : pystr) : Prop :=
  ∃ ck c, cls_of h o = Some ck ∧ find_cls S ck = Some c ∧ n = c_name c.
(** The same with the empty name for what has no class in the table. *)
Definition class_label (S : schema) (h : heap) (o : nat) (n : pystr) : Prop :=
  class_named S h o n ∨ n = [] ∧ ∀ n', ¬ class_named S h o n'.

(** *** Positions *)
Context (S : schema) (pm : list (name * name)) (fuel : nat) (pf : pystr → option pystr) (err : bool) (root : elem).
(** The document, after [k] events, continues with the end of property [a],
    element [e], of object [o]; the heap is then [hk]. *)
Definition property_at (evs : list event) (d : dict) (h : heap) (k o : nat) (e : elem) (a : name) (d' : dict) (hk : heap) : Prop :=
  ∃ pre rest, evs = pre ++ EEnd e :: rest ∧ length pre = k ∧ is_property base rdf e a ∧
    Reaches base rdf S pm fuel pf err root pre (EEnd e :: rest) d h (Some (VRef o)) d' hk.
(** A reference to nothing, from an object of class [n] to [id]. *)
Definition dangling_at (evs : list event) (d : dict) (h : heap) (n id : pystr) (k : nat) : Prop :=
  ∃ o e a d' hk, property_at evs d h k o e a d' hk ∧ resource rdf e = Some (u "#" ++ id) ∧ has_attr S hk o a ∧
    assoc id d' = None ∧ class_label S hk o n.
(** A property [a] that an object of class [n] does not have. *)
Definition unknown_at (evs : list event) (d : dict) (h : heap) (n a : pystr) (k : nat) : Prop :=
  ∃ o e d' hk, property_at evs d h k o e a d' hk ∧ ¬ has_attr S hk o a ∧ class_label S hk o n.
End vocabulary.
