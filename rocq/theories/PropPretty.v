(** Properties of the pretty printer (C58-C60, C63, C64). *)
From Coq Require Import String.
From stdpp Require Import prelude.
From Verif Require Import PyStr PyHeap Schema Assoc Reader ReaderSpec Pretty PrettySpec PrettyFacts.

(** A document with text at every place: white space, none, and data. *)
Definition pretty_doc : et :=
  Et (u "{r#}RDF") [(u "k", u "v")] (Some (u "  ")) None
    [Et (u "{c#}Bus") [(u "{r#}ID", u "b1")] None (Some (u " "))
       [Et (u "{c#}Bus.name") [] (Some (u " ")) None []; Et (u "{c#}Bus.v") [] (Some (u "1.0")) (Some (u "
")) []];
     Et (u "{c#}Line") [(u "{r#}about", u "#l1")] None None []].

(** *** C58: the document is preserved *)
Theorem C58_content_preserved t n : same_content t (indent n t).
Proof. exact (indent_same t n). Qed.
Print Assumptions C58_content_preserved.
(** Nothing but white space between tags is replaced, mixed text stays. *)
Example C58_example :
  let t := Et (u "a") [] (Some (u " x ")) None [Et (u "b") [] (Some (u " ")) (Some (u "y")) []; Et (u "c") [] None (Some (u " ")) []] in
  indent 0 t = Et (u "a") [] (Some (u " x ")) (Some (u "
")) [Et (u "b") [] (Some (u " ")) (Some (u "y")) []; Et (u "c") [] None (Some (u "
")) []].
Proof. reflexivity. Qed.

(** *** C59: layout *)
Theorem C59_layout t : data_only t → laid_out 0 None (tokens (indent 0 t)).
Proof.
  intros H. rewrite tokens_body. apply indent_body; [done|by left|]. by destruct (et_tail (indent 0 t)).
Qed.
Print Assumptions C59_layout.
Lemma white_text_b x : blank x = true → white_text x.
Proof. apply blank_white. Qed.
Example C59_example : data_only pretty_doc.
Proof. unfold pretty_doc. repeat constructor; by apply white_text_b. Qed.

(** *** C60: idempotence *)
Theorem C60_idempotent t n : indent n (indent n t) = indent n t.
Proof. exact (indent_idem t n). Qed.
Print Assumptions C60_idempotent.
Example C60_example : indent 0 pretty_doc ≠ pretty_doc.
Proof. done. Qed.

(** *** C63: canonical form *)
(** Documents that differ only in white space between tags print the same; a
    parser gives the root of a document no tail. *)
Theorem C63_canonical t t' : same_content t t' → et_tail t = et_tail t' → indent 0 t = indent 0 t'.
Proof. intros H E. exact (indent_canonical t t' H 0 (λ _, E)). Qed.
Print Assumptions C63_canonical.
Example C63_example :
  let k := Et (u "k") [] (Some (u " ")) in
  let t := Et (u "a") [] None None [k None []; k (Some (u " z")) []] in
  let t' := Et (u "a") [] (Some (u "	")) None [k (Some (u "  ")) []; k (Some (u " z")) []] in
  same_content t t' ∧ et_tail t = et_tail t' ∧ t ≠ t'.
Proof.
  split_and!; [|done|done]. constructor; [done|right; split; by apply white_text_b|by left|].
  apply Forall2_cons; split; [apply same_leaf; right; split; by apply white_text_b|].
  apply Forall2_cons; split; [apply same_leaf; by left|constructor].
Qed.

(** *** C64: reading the pretty-printed document *)
Theorem C64_reading S pm fuel pf base rdf t d h err :
  leaf_properties base rdf t →
  read S pm fuel pf base rdf (Source (tree_events true (without_tails (indent 0 t))) err) d h =
  read S pm fuel pf base rdf (Source (tree_events true (without_tails t)) err) d h.
Proof. intros H. symmetry. apply read_same, same_events; [apply indent_same|done]. Qed.
Print Assumptions C64_reading.
Example C64_example : leaf_properties (u "{c#}") (u "r#") pretty_doc.
Proof.
  unfold pretty_doc. apply lp_node; [left; by intros [? ?]|]. apply Forall_cons. split; [|repeat constructor].
  apply lp_node; [right; left; by eexists|]. repeat constructor.
Qed.
