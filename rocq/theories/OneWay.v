(** The methods of collections that no property manages, as in
    CIM14/IEC61970/Protection/ProtectionEquipment.py:67-73. *)
From stdpp Require Import prelude gmap.
From Verif Require Import PyStr PyHeap Schema Assoc.

Section one_way.
Context (S : schema).
(** The class or one of its bases has a plain collection [p] and so the methods
    [add_p] and [remove_p]; tools/gen_tables.py checks that the two go together
    (CIM14/IEC61970/Protection/ProtectionEquipment.py:50, 67-73). *)
Definition plain_many (ck p : name) : bool :=
  existsb (λ c, existsb (λ st, match st with SPlainMany q => str_eqb p q | _ => false end) (c_steps c)) (mro S ck).
(** A call of such a method (CIM14/IEC61970/Protection/ProtectionEquipment.py:67, 71). *)
Definition plain_call (v : val) (p : name) (body : M unit) : M unit := λ h,
  match v with
  | VRef o => match cls_of h o with
              | Some ck => if plain_many ck p then body h else (inr AttributeError, h)
              | None => (inr Unmodelled, h)
              end
  | _ => (inr AttributeError, h)
  end.
(** [v.add_P(x1, ..., xn)] (CIM14/IEC61970/Protection/ProtectionEquipment.py:67-69). *)
Definition add_plain (v : val) (p : name) (xs : list val) : M unit :=
  plain_call v p (for_each xs (λ x, let* l := getattr S v p in append l x)).
(** [v.remove_P(x1, ..., xn)] (CIM14/IEC61970/Protection/ProtectionEquipment.py:71-73). *)
Definition remove_plain (v : val) (p : name) (xs : list val) : M unit :=
  plain_call v p (for_each xs (λ x, let* l := getattr S v p in list_remove l x)).
End one_way.
