(** Vocabulary for the order in collections after a read. *)
From Coq Require Import String.
From stdpp Require Import prelude gmap.
From Verif Require Import PyStr PyHeap Schema AssocSpec Reader ReaderSpec DocSpec.

(** A new member goes to the end of a collection.  One that is there already
    stays where it is, goes to the end, or comes a second time. *)
Inductive how := Stays | Moves | Repeats.
Definition joined (m : how) (v : val) (ys : list val) : list val :=
  match m with
  | Stays => if decide (v ∈ ys) then ys else ys ++ [v]
  | Moves => filter (λ y, y ≠ v) ys ++ [v]
  | Repeats => ys ++ [v]
  end.

Section members.
Context (base rdf : pystr) (S : schema) (cl : pystr → option name) (d : dict) (o : nat) (q : name).
(** The member that a statement brings to the collection [q] of the object [o];
    [d] has the objects. *)
Definition arrival (st : pystr * elem) : option (how * val) :=
  match resource rdf st.2 with
  | Some (35%N :: id) =>
      let a := after_last_dot (local base st.2) in
      ck ← cl st.1; vi ← assoc st.1 d; vid ← assoc id d;
      match lookup_prop S ck a with
      (* the single reference to [o], the first one counts *)
      | Some (POneMany q') => if decide (q' = q ∧ vid = VRef o) then Some (Stays, vi) else None
      (* the same by another name, which does not see objects of other classes *)
      | Some (PAlias p c) =>
          match lookup_prop S ck p with
          | Some (POneMany q') => if decide (q' = q ∧ vid = VRef o) then Some (if decide (cl id = Some c) then Stays else Moves, vi) else None
          | _ => None
          end
      (* the collection is stated *)
      | Some (PManyOne _) => if decide (a = q ∧ vi = VRef o) then Some (Moves, vid) else None
      | Some (PManyMany q') =>
          if decide (a = q ∧ vi = VRef o) then Some (Repeats, vid)
          else if decide (q' = q ∧ vid = VRef o) then Some (Stays, vi) else None
      | _ => None
      end
  | _ => None
  end.
Definition join (ys : list val) (st : pystr * elem) : list val := match arrival st with Some (m, v) => joined m v ys | None => ys end.
Definition joins (sts : list (pystr * elem)) (ys : list val) : list val := fold_left join sts ys.
End members.
(** The list stored for [o.q]; objects that are not there yet have an empty one. *)
Definition members (h : heap) (o : nat) (q : name) (ys : list val) : Prop :=
  match cls_of h o with Some _ => view h o (Priv q) = Some (OL ys) | None => ys = [] end.
