(** Getters, setters, add*, remove* and constructors of the generated CIM
    classes, statement by statement. *)
From Coq Require Import String.
From stdpp Require Import prelude gmap.
From Verif Require Import PyStr PyHeap Schema.

Section assoc.
Context (S : schema).

(** The property [p] of the class of [o] (CIM14/IEC61970/Core/Terminal.py:111). *)
Definition obj_prop (h : heap) (o : nat) (p : name) : option prop :=
  c ← cls_of h o; lookup_prop S c p.

(** [v.p], read: a property's getter returns [self._p]
    (CIM14/IEC61970/Core/Terminal.py:96-99); the two aliases of ACLineSegment
    test the type of the aliased reference
    (CIM15/IEC61970/Wires/ACLineSegment.py:116-122, 202-208); any other name is
    looked up in the instance dictionary. *)
Definition getattr (v : val) (p : name) : M val := λ h,
  match v with
  | VRef o =>
      match obj_prop h o p with
      | None => read_key v (key_of p) h
      | Some (PAlias t c) =>
          (let* w := read_key v (Priv t) in
           λ h', if decide (val_cls h' w = Some c) then (inl w, h') else (inl VNone, h')) h
      | Some _ => read_key v (Priv p) h
      end
  | _ => (inr AttributeError, h)
  end.

(** [v.p = w].  [fuel] is the remaining recursion depth of the interpreter.
    CIM14/IEC61970/Core/Terminal.py:101-111; each shape is cited below. *)
Fixpoint setattr (fuel : nat) (v : val) (p : name) (w : val) {struct fuel} : M unit := λ h,
  match fuel with
  | O => (inr RecursionError, h)
  | Datatypes.S f =>
    match v with
    | VRef o =>
      match obj_prop h o p with
      | None => write_key v (key_of p) w h
      (* CIM15/IEC61970/OperationalLimits/CheckPoint.py:46-47 *)
      | Some PPrivate => write_key v (Priv p) w h
      (* CIM15/IEC61970/Wires/ACLineSegment.py:124-125, 210-211 *)
      | Some (PAlias t _) => setattr f v t w h
      (* CIM14/IEC61970/Core/Terminal.py:101-109 *)
      | Some (POneMany q) =>
          (let* cur := read_key v (Priv p) in
           (if decide (cur = VNone) then ret tt else
              let* own := getattr v p in
              let* lst := getattr own q in
              let* xs := iter_val lst in
              let* filtered := new_list (without v xs) in
              write_key cur (Priv q) filtered) ;;;
           write_key v (Priv p) w ;;;
           let* now := read_key v (Priv p) in
           if decide (now = VNone) then ret tt else
             let* lst := read_key now (Priv q) in
             let* b := contains v lst in
             if b : bool then ret tt else append lst v) h
      (* CIM14/IEC61970/Core/Terminal.py:289-296 *)
      | Some (POneOne q) =>
          (let* cur := read_key v (Priv p) in
           (if decide (cur = VNone) then ret tt else write_key cur (Priv q) VNone) ;;;
           write_key v (Priv p) w ;;;
           let* now := read_key v (Priv p) in
           if decide (now = VNone) then ret tt else
             setattr f now q VNone ;;;
             let* now' := read_key v (Priv p) in
             write_key now' (Priv q) v) h
      (* CIM14/IEC61970/Core/Terminal.py:118-123,
         CIM15/IEC61970/Core/Equipment.py:136-141 *)
      | Some (PManyOne q) | Some (PManyOneDbl q) =>
          (let* cur := read_key v (Priv p) in
           let* xs := iter_val cur in
           for_each xs (λ x, setattr f x q VNone) ;;;
           let* ys := iter_val w in
           for_each ys (λ y, write_key y (Priv q) v) ;;;
           write_key v (Priv p) w) h
      (* CIM15/IEC61970/Core/PowerSystemResource.py:125-132; note that line 128
         assigns to an attribute of the list itself *)
      | Some (PManyMany q) =>
          (let* cur := read_key v (Priv p) in
           let* ps := iter_val cur in
           for_each ps (λ x,
             let* lst := getattr x q in
             let* qs := iter_val lst in
             let* filtered := new_list (without v qs) in
             let* cur' := read_key v (Priv p) in
             write_key cur' (Priv q) filtered) ;;;
           live_each w (λ r,
             let* lst := read_key r (Priv q) in
             let* b := contains v lst in
             if b : bool then ret tt else append lst v) ;;;
           write_key v (Priv p) w) h
      end
    | _ => (inr AttributeError, h)
    end
  end.

(** [v.addP(x1, ..., xn)]; properties that are not collections have no such
    method (CIM14/IEC61970/Core/Terminal.py:127-129). *)
Definition add (fuel : nat) (v : val) (p : name) (xs : list val) : M unit := λ h,
  match v with
  | VRef o =>
    match obj_prop h o p with
    (* CIM14/IEC61970/Core/Terminal.py:127-129 *)
    | Some (PManyOne q) => for_each xs (λ x, setattr fuel x q v) h
    (* CIM15/IEC61970/Core/Equipment.py:145-148 *)
    | Some (PManyOneDbl q) =>
        for_each xs (λ x, setattr fuel x q v ;;; let* l := getattr v p in append l x) h
    (* CIM15/IEC61970/Core/PowerSystemResource.py:136-140 *)
    | Some (PManyMany q) =>
        for_each xs (λ x,
          let* lst := read_key x (Priv q) in
          let* b := contains v lst in
          (if b : bool then ret tt else append lst v) ;;;
          let* l := read_key v (Priv p) in append l x) h
    | _ => (inr AttributeError, h)
    end
  | _ => (inr AttributeError, h)
  end.

(** [v.removeP(x1, ..., xn)] (CIM14/IEC61970/Core/Terminal.py:131-133). *)
Definition remove (fuel : nat) (v : val) (p : name) (xs : list val) : M unit := λ h,
  match v with
  | VRef o =>
    match obj_prop h o p with
    (* CIM14/IEC61970/Core/Terminal.py:131-133 *)
    | Some (PManyOne q) => for_each xs (λ x, setattr fuel x q VNone) h
    (* CIM15/IEC61970/Core/Equipment.py:150-153 *)
    | Some (PManyOneDbl q) =>
        for_each xs (λ x, setattr fuel x q VNone ;;; let* l := getattr v p in list_remove l x) h
    (* CIM15/IEC61970/Core/PowerSystemResource.py:142-146 *)
    | Some (PManyMany q) =>
        for_each xs (λ x,
          let* lst := read_key x (Priv q) in
          let* b := contains v lst in
          (if b : bool then (let* lst' := read_key x (Priv q) in list_remove lst' v) else ret tt) ;;;
          let* l := read_key v (Priv p) in list_remove l x) h
    | _ => (inr AttributeError, h)
    end
  | _ => (inr AttributeError, h)
  end.

(** Binding of call arguments to parameters: positional arguments first, then
    keywords; a parameter given twice is a TypeError. Returns the environment
    and the arguments left over for the star parameters
    (CIM14/IEC61970/Core/Terminal.py:27, 87). *)
Fixpoint bind_pos (ps : list (name * val)) (pos : list val)
    : list (name * val) * list (name * val) * list val :=
  match ps, pos with
  | [], _ => ([], [], pos)
  | _, [] => ([], ps, [])
  | (p, _) :: ps', a :: pos' =>
      let '(bound, rest, extra) := bind_pos ps' pos' in ((p, a) :: bound, rest, extra)
  end.

(* CIM14/IEC61970/Core/Terminal.py:27, 87 *)
Definition bind_args (ps : list (name * val)) (pos : list val) (kw : list (name * val))
    : option (list (name * val) * list val * list (name * val)) :=
  let '(bound, rest, extra) := bind_pos ps pos in
  if existsb (λ '(k, _), match assoc k bound with Some _ => true | None => false end) kw then None
  else
    let env := bound ++ map (λ '(p, d), (p, default d (assoc p kw))) rest in
    let kw' := filter (λ '(k, _), assoc k rest = None) kw in
    Some (env, extra, kw').

(** The value of a parameter (CIM14/IEC61970/Core/Terminal.py:46). *)
Definition env_get (env : list (name * val)) (p : name) : val := default VNone (assoc p env).

(** One constructor statement (CIM14/IEC61970/Core/Terminal.py:46-85). *)
Definition run_step (fuel : nat) (self : val) (env : list (name * val)) (s : step) : M unit :=
  match s with
  | SAttr p => setattr fuel self p (env_get env p)
  | SOne p => write_key self (Priv p) VNone ;;; setattr fuel self p (env_get env p)
  | SMany p =>
      let* l := new_list [] in
      write_key self (Priv p) l ;;;
      (if decide (env_get env p = VNone)
       then let* l2 := new_list [] in setattr fuel self p l2
       else setattr fuel self p (env_get env p))
  | SPlainMany p =>
      if decide (env_get env p = VNone)
      then let* l2 := new_list [] in setattr fuel self p l2
      else setattr fuel self p (env_get env p)
  | SPriv p => write_key self (Priv p) (env_get env p)
  (* CIM15/IEC61970/Wires/ACLineSegment.py:72-87 *)
  | SImpedance =>
      let seq := env_get env (u "SequenceImpedance") in
      let pha := env_get env (u "PhaseImpedance") in
      let per := env_get env (u "PerLengthImpedance") in
      write_key self (Priv (u "SequenceImpedance")) VNone ;;;
      write_key self (Priv (u "PhaseImpedance")) VNone ;;;
      write_key self (Priv (u "PerLengthImpedance")) VNone ;;;
      if decide (seq ≠ VNone) then
        if decide (pha ≠ VNone ∨ per ≠ VNone) then raise ValueError
        else setattr fuel self (u "SequenceImpedance") seq
      else if decide (pha ≠ VNone) then
        if decide (per ≠ VNone) then raise ValueError
        else setattr fuel self (u "PhaseImpedance") pha
      else if decide (per ≠ VNone) then setattr fuel self (u "PerLengthImpedance") per
      else ret tt
  end.

(** [__init__] along the base classes: a derived class runs its own statements
    first and calls [super().__init__( *args, **kw_args)] last
    (CIM14/IEC61970/Core/Terminal.py:27-87). *)
Fixpoint init_chain (fuel : nat) (cs : list cls) (self : val)
    (pos : list val) (kw : list (name * val)) : M unit :=
  match cs with
  | [] => (* object.__init__ takes no arguments *)
      match pos, kw with [], [] => ret tt | _, _ => raise TypeError end
  | c :: r =>
      match bind_args (c_params c) pos kw with
      | None => raise TypeError
      | Some (env, pos', kw') =>
          if negb (c_kw c) && negb (match pos', kw' with [], [] => true | _, _ => false end)
          then raise TypeError
          else
            for_each (c_steps c) (run_step fuel self env) ;;;
            if c_kw c then
              if c_super_ok c then init_chain fuel r self pos' kw' else raise TypeError
            else ret tt (* Element and the compound classes call no super *)
      end
  end.

(** [C(pos..., kw...)] (PyCIM/RDFXMLReader.py:109, 178). *)
Definition construct (fuel : nat) (ck : name) (pos : list val) (kw : list (name * val)) : M val := λ h,
  match find_cls S ck with
  | None => (inr Unmodelled, h)
  | Some _ =>
      let o := fresh_obj h in
      let h1 := Heap (<[o := Obj ck ∅]> (h_objs h)) (h_lists h) in
      (init_chain fuel (mro S ck) (VRef o) pos kw ;;; ret (VRef o)) h1
  end.

End assoc.
