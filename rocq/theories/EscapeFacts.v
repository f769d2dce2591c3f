(** Escaping and its inverse. *)
From Coq Require Import String.
From stdpp Require Import prelude.
From Verif Require Import PyStr PyHeap XmlWriter XmlSpec XmlCalls.

(** What becomes of one character. *)
Definition esc1 (c : N) : pystr :=
  if (c =? 38)%N then u "&amp;" else if (c =? 60)%N then u "&lt;" else if (c =? 62)%N then u "&gt;" else [c].
Definition esca1 (c : N) : pystr :=
  if (c =? 38)%N then u "&amp;" else if (c =? 39)%N then u "&apos;" else if (c =? 34)%N then u "&quot;"
  else if (c =? 60)%N then u "&lt;" else if (c =? 62)%N then u "&gt;" else [c].

Lemma replace1_app c r a b : replace1 c r (a ++ b) = replace1 c r a ++ replace1 c r b.
Proof.
  induction a as [|x a IH]; [done|]. simpl. destruct (x =? c)%N; [|by rewrite IH].
  by rewrite IH, app_assoc.
Qed.
Lemma escape_cdata_app a b : escape_cdata (a ++ b) = escape_cdata a ++ escape_cdata b.
Proof. unfold escape_cdata. by rewrite !replace1_app. Qed.
Lemma escape_attrib_app a b : escape_attrib (a ++ b) = escape_attrib a ++ escape_attrib b.
Proof. unfold escape_attrib. by rewrite !replace1_app. Qed.
Lemma escape_cdata_1 c : escape_cdata [c] = esc1 c.
Proof.
  unfold escape_cdata, esc1. cbn [replace1].
  destruct (c =? 38)%N eqn:E1; [reflexivity|].
  cbn [replace1]. destruct (c =? 60)%N eqn:E2; [reflexivity|].
  cbn [replace1]. destruct (c =? 62)%N eqn:E3; reflexivity.
Qed.
Lemma escape_attrib_1 c : escape_attrib [c] = esca1 c.
Proof.
  unfold escape_attrib, esca1. cbn [replace1].
  destruct (c =? 38)%N eqn:E1; [reflexivity|].
  cbn [replace1]. destruct (c =? 39)%N eqn:E2; [reflexivity|].
  cbn [replace1]. destruct (c =? 34)%N eqn:E3; [reflexivity|].
  cbn [replace1]. destruct (c =? 60)%N eqn:E4; [reflexivity|].
  cbn [replace1]. destruct (c =? 62)%N eqn:E5; reflexivity.
Qed.
Lemma escape_cdata_cons c s : escape_cdata (c :: s) = esc1 c ++ escape_cdata s.
Proof. change (c :: s) with ([c] ++ s). by rewrite escape_cdata_app, escape_cdata_1. Qed.
Lemma escape_attrib_cons c s : escape_attrib (c :: s) = esca1 c ++ escape_attrib s.
Proof. change (c :: s) with ([c] ++ s). by rewrite escape_attrib_app, escape_attrib_1. Qed.

(** *** Expansion gives the string back *)
Lemma expand_esc1 c s : expand_in None (esc1 c ++ s) = (c ::.) <$> expand_in None s.
Proof.
  unfold esc1.
  destruct (c =? 38)%N eqn:E1; [apply N.eqb_eq in E1 as ->; reflexivity|].
  destruct (c =? 60)%N eqn:E2; [apply N.eqb_eq in E2 as ->; reflexivity|].
  destruct (c =? 62)%N eqn:E3; [apply N.eqb_eq in E3 as ->; reflexivity|].
  cbn [app expand_in]. by rewrite E1.
Qed.
Lemma expand_esca1 c s : expand_in None (esca1 c ++ s) = (c ::.) <$> expand_in None s.
Proof.
  unfold esca1.
  destruct (c =? 38)%N eqn:E1; [apply N.eqb_eq in E1 as ->; reflexivity|].
  destruct (c =? 39)%N eqn:E2; [apply N.eqb_eq in E2 as ->; reflexivity|].
  destruct (c =? 34)%N eqn:E3; [apply N.eqb_eq in E3 as ->; reflexivity|].
  destruct (c =? 60)%N eqn:E4; [apply N.eqb_eq in E4 as ->; reflexivity|].
  destruct (c =? 62)%N eqn:E5; [apply N.eqb_eq in E5 as ->; reflexivity|].
  cbn [app expand_in]. by rewrite E1.
Qed.
Lemma expand_escape_cdata s : expand (escape_cdata s) = Some s.
Proof.
  unfold expand. induction s as [|c s IH]; [done|].
  by rewrite escape_cdata_cons, expand_esc1, IH.
Qed.
Lemma expand_escape_attrib s : expand (escape_attrib s) = Some s.
Proof.
  unfold expand. induction s as [|c s IH]; [done|].
  by rewrite escape_attrib_cons, expand_esca1, IH.
Qed.

(** *** What the output contains *)
Lemma esc1_chars c x : x ∈ esc1 c → x ≠ 60%N ∧ x ≠ 62%N.
Proof.
  unfold esc1.
  destruct (c =? 38)%N; [by intros Hx; split; intros ->; revert Hx; apply (bool_decide_unpack _); vm_compute|].
  destruct (c =? 60)%N eqn:E2; [by intros Hx; split; intros ->; revert Hx; apply (bool_decide_unpack _); vm_compute|].
  destruct (c =? 62)%N eqn:E3; [by intros Hx; split; intros ->; revert Hx; apply (bool_decide_unpack _); vm_compute|].
  intros ->%elem_of_list_singleton. apply N.eqb_neq in E2, E3. done.
Qed.
Lemma esca1_chars c x : x ∈ esca1 c → x ≠ 60%N ∧ x ≠ 62%N ∧ x ≠ 34%N ∧ x ≠ 39%N.
Proof.
  unfold esca1.
  assert (∀ s : pystr, bool_decide (60%N ∉ s ∧ 62%N ∉ s ∧ 34%N ∉ s ∧ 39%N ∉ s) = true → x ∈ s →
    x ≠ 60%N ∧ x ≠ 62%N ∧ x ≠ 34%N ∧ x ≠ 39%N) as Hd.
  { intros s (H1 & H2 & H3 & H4)%bool_decide_eq_true Hx. split_and!; by intros ->. }
  destruct (c =? 38)%N; [apply Hd; reflexivity|].
  destruct (c =? 39)%N eqn:E2; [apply Hd; reflexivity|].
  destruct (c =? 34)%N eqn:E3; [apply Hd; reflexivity|].
  destruct (c =? 60)%N eqn:E4; [apply Hd; reflexivity|].
  destruct (c =? 62)%N eqn:E5; [apply Hd; reflexivity|].
  intros ->%elem_of_list_singleton. apply N.eqb_neq in E2, E3, E4, E5. done.
Qed.
Lemma escape_cdata_chars s x : x ∈ escape_cdata s → x ≠ 60%N ∧ x ≠ 62%N.
Proof.
  induction s as [|c s IH]; [by intros ?%elem_of_nil|].
  rewrite escape_cdata_cons. intros [?%esc1_chars|?]%elem_of_app; auto.
Qed.
Lemma escape_attrib_chars s x : x ∈ escape_attrib s → x ≠ 60%N ∧ x ≠ 62%N ∧ x ≠ 34%N ∧ x ≠ 39%N.
Proof.
  induction s as [|c s IH]; [by intros ?%elem_of_nil|].
  rewrite escape_attrib_cons. intros [?%esca1_chars|?]%elem_of_app; auto.
Qed.

Lemma amp_ok_app ents a b : amp_ok ents a → amp_ok ents b → amp_ok ents (a ++ b).
Proof.
  intros Ha Hb pre post E. apply app_eq_inv in E as [(k & -> & Hk)|(k & -> & Hk)].
  - destruct k as [|c k]; simpl in Hk.
    + symmetry in Hk. destruct (Hb [] post) as (e & rest & ? & ->); [by rewrite <- Hk|]. eauto.
    + injection Hk as <- ->. destruct (Ha pre k) as (e & rest & ? & ->); [done|].
      exists e, (rest ++ b). by rewrite app_assoc.
  - apply (Hb k post). done.
Qed.
Lemma amp_ok_ent ents e : e ∈ ents → 38%N ∉ e → amp_ok ents (38%N :: e).
Proof.
  intros He Hn [|x pre] post E; simplify_eq/=.
  - exists post, []. by rewrite app_nil_r.
  - destruct Hn. apply elem_of_app. right. left.
Qed.
Lemma amp_ok_1 ents c : c ≠ 38%N → amp_ok ents [c].
Proof. intros Hc [|x [|? ?]] post E; simplify_eq/=. Qed.
Lemma elem_of_b (x : pystr) xs : existsb (str_eqb x) xs = true → x ∈ xs.
Proof. intros (y & Hin & ->%str_eqb_eq)%existsb_exists. by apply elem_of_list_In. Qed.
Lemma not_amp_b (s : pystr) : existsb (N.eqb 38) s = false → 38%N ∉ s.
Proof.
  intros E Hin. assert (existsb (N.eqb 38) s = true); [|congruence]. apply existsb_exists.
  exists 38%N. split; [by apply elem_of_list_In|done].
Qed.
Lemma escape_cdata_amp s : amp_ok cdata_entities (escape_cdata s).
Proof.
  induction s as [|c s IH]; [intros [|] ? ?; simplify_eq/=|].
  rewrite escape_cdata_cons. apply amp_ok_app; [|done]. unfold esc1.
  destruct (c =? 38)%N eqn:E; [apply amp_ok_ent; [by apply elem_of_b|by apply not_amp_b]|].
  destruct (c =? 60)%N; [apply amp_ok_ent; [by apply elem_of_b|by apply not_amp_b]|].
  destruct (c =? 62)%N; [apply amp_ok_ent; [by apply elem_of_b|by apply not_amp_b]|].
  apply amp_ok_1. by apply N.eqb_neq.
Qed.
Lemma escape_attrib_amp s : amp_ok attrib_entities (escape_attrib s).
Proof.
  induction s as [|c s IH]; [intros [|] ? ?; simplify_eq/=|].
  rewrite escape_attrib_cons. apply amp_ok_app; [|done]. unfold esca1.
  destruct (c =? 38)%N eqn:E; [apply amp_ok_ent; [by apply elem_of_b|by apply not_amp_b]|].
  destruct (c =? 39)%N; [apply amp_ok_ent; [by apply elem_of_b|by apply not_amp_b]|].
  destruct (c =? 34)%N; [apply amp_ok_ent; [by apply elem_of_b|by apply not_amp_b]|].
  destruct (c =? 60)%N; [apply amp_ok_ent; [by apply elem_of_b|by apply not_amp_b]|].
  destruct (c =? 62)%N; [apply amp_ok_ent; [by apply elem_of_b|by apply not_amp_b]|].
  apply amp_ok_1. by apply N.eqb_neq.
Qed.

