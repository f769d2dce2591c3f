(** Parsing what the writer wrote. *)
From Coq Require Import String ZArith Lia.
From stdpp Require Import prelude.
From Verif Require Import PyStr PyHeap XmlWriter XmlSpec XmlCalls EscapeFacts DigitFacts Py2Facts XmlWriterFacts.

(** The tree with the attributes in the order written. *)
Notation call_node := (call_tree sort_attrs).

Lemma prun_app s a b : prun s (a ++ b) = s' ← prun s a; prun s' b.
Proof.
  revert s. induction a as [|c a IH]; intros s; [done|]. cbn [app prun].
  destruct (pstep s c); cbn [mbind option_bind]; [apply IH|done].
Qed.
Lemma prun_cons s c r : prun s (c :: r) = s' ← pstep s c; prun s' r.
Proof. done. Qed.

(** *** Characters *)
Ltac bools := repeat match goal with
  | H : _ || _ = true |- _ => apply orb_true_iff in H as [H|H]
  | H : _ && _ = true |- _ => apply andb_true_iff in H as [? H]
  | H : (_ =? _)%N = true |- _ => apply N.eqb_eq in H
  | H : (_ <=? _)%N = true |- _ => apply N.leb_le in H
  end.
Lemma name_char_xml c : name_char c = true → xml_char c = true.
Proof.
  intros H. unfold xml_char.
  assert ((32 <= c /\ c <= 55295) \/ (57344 <= c /\ c <= 65533) \/ (65536 <= c /\ c <= 1114111))%N as Hc.
  { unfold name_char, name_start in H. bools; lia. }
  rewrite !orb_true_iff, !andb_true_iff, !N.leb_le. tauto.
Qed.
(** The characters that end or extend a name. *)
Lemma name_char_neq c : name_char c = true →
  xml_space c = false ∧ (c =? 47)%N = false ∧ (c =? 62)%N = false ∧ (c =? 61)%N = false ∧ c ≠ 38%N ∧ c ≠ 60%N ∧ c ≠ 62%N ∧ c ≠ 13%N.
Proof.
  intros H. unfold xml_space. rewrite !orb_false_iff, !N.eqb_neq.
  split_and!; intros ->; vm_compute in H; discriminate.
Qed.
Lemma name_start_neq c : name_start c = true → (c =? 63)%N = false ∧ (c =? 33)%N = false.
Proof. intros H. rewrite !N.eqb_neq. split_and!; intros ->; vm_compute in H; discriminate. Qed.
Lemma name_start_char c : name_start c = true → name_char c = true.
Proof. intros H. unfold name_char. by rewrite H. Qed.
Lemma is_name_inv s : is_name s = true → ∃ c r, s = c :: r ∧ name_start c = true ∧ ∀ x, x ∈ s → name_char x = true.
Proof.
  destruct s as [|c r]; [done|]. cbn [is_name]. rewrite andb_true_iff, forallb_forall. intros [Hc Hr].
  exists c, r. split; [done|]. split; [done|]. intros x [->|Hx]%elem_of_cons; [by apply name_start_char|].
  apply Hr. by apply elem_of_list_In.
Qed.
Lemma is_name_escape s : is_name s = true → escape_cdata s = s.
Proof.
  intros (c & r & _ & _ & H)%is_name_inv. apply escape_cdata_id. intros x Hx.
  apply H, name_char_neq in Hx. naive_solver.
Qed.
Lemma data_char_xml s : forallb data_char s = true → forallb xml_char s = true.
Proof.
  rewrite !forallb_forall. intros H x Hx. apply H in Hx. unfold data_char in Hx. by apply andb_true_iff in Hx as [? _].
Qed.

(** *** Text *)
Lemma prun_esc1 acc b c : xml_char c = true → prun (LText acc, b) (esc1 c) = Some (LText (c :: acc), b).
Proof.
  intros Hc. unfold esc1.
  destruct (N.eqb_spec c 38) as [->|]; [reflexivity|].
  destruct (N.eqb_spec c 60) as [->|]; [reflexivity|].
  destruct (N.eqb_spec c 62) as [->|]; [reflexivity|].
  cbn [prun]. unfold pstep. cbn [fst snd]. unfold lstep. rewrite Hc. cbn [negb].
  rewrite !(proj2 (N.eqb_neq _ _)) by done. reflexivity.
Qed.
Lemma prun_text s : ∀ acc b, forallb xml_char s = true →
  prun (LText acc, b) (escape_cdata s) = Some (LText (reverse s ++ acc), b).
Proof.
  induction s as [|c s IH]; intros acc b H; [done|]. cbn [forallb] in H. apply andb_true_iff in H as [Hc H].
  rewrite escape_cdata_cons, prun_app, prun_esc1 by done. cbn [mbind option_bind].
  rewrite IH by done. by rewrite reverse_cons, <- app_assoc.
Qed.

(** *** Names *)
Lemma pstep_lex l b l' c : lstep l c = Some (l', []) → pstep (l, b) c = Some (l', b).
Proof. intros E. unfold pstep. cbn [fst snd]. by rewrite E. Qed.
Lemma prun_open_name r : ∀ acc b, (∀ x, x ∈ r → name_char x = true) →
  prun (LOpen acc, b) r = Some (LOpen (reverse r ++ acc), b).
Proof.
  induction r as [|c r IH]; intros acc b H; [done|].
  assert (name_char c = true) as Hc by (apply H; left). destruct (name_char_neq c Hc) as (H1 & H2 & H3 & _).
  rewrite prun_cons, (pstep_lex _ _ (LOpen (c :: acc))).
  - cbn [mbind option_bind]. rewrite IH by (intros ? ?; apply H; by right). by rewrite reverse_cons, <- app_assoc.
  - unfold lstep. rewrite (name_char_xml c Hc), H1, H2, H3. done.
Qed.
Lemma prun_close_name r : ∀ acc b, (∀ x, x ∈ r → name_char x = true) →
  prun (LClose acc, b) r = Some (LClose (reverse r ++ acc), b).
Proof.
  induction r as [|c r IH]; intros acc b H; [done|].
  assert (name_char c = true) as Hc by (apply H; left). destruct (name_char_neq c Hc) as (H1 & H2 & H3 & _).
  rewrite prun_cons, (pstep_lex _ _ (LClose (c :: acc))).
  - cbn [mbind option_bind]. rewrite IH by (intros ? ?; apply H; by right). by rewrite reverse_cons, <- app_assoc.
  - unfold lstep. rewrite (name_char_xml c Hc), H1, H3. done.
Qed.
Lemma prun_attr_name tag ats r : ∀ acc b, (∀ x, x ∈ r → name_char x = true) →
  prun (LAttr tag ats acc, b) r = Some (LAttr tag ats (reverse r ++ acc), b).
Proof.
  induction r as [|c r IH]; intros acc b H; [done|].
  assert (name_char c = true) as Hc by (apply H; left). destruct (name_char_neq c Hc) as (H1 & H2 & H3 & H4 & _).
  rewrite prun_cons, (pstep_lex _ _ (LAttr tag ats (c :: acc))).
  - cbn [mbind option_bind]. rewrite IH by (intros ? ?; apply H; by right). by rewrite reverse_cons, <- app_assoc.
  - unfold lstep. rewrite (name_char_xml c Hc), H1, H4. done.
Qed.
(** After "<". *)
Lemma prun_tag tag b : is_name tag = true → prun (LLt, b) tag = Some (LOpen (reverse tag), b).
Proof.
  intros (c & r & -> & Hs & Hr)%is_name_inv. assert (name_char c = true) as Hc by (apply Hr; left).
  destruct (name_char_neq c Hc) as (H1 & H2 & H3 & _). destruct (name_start_neq c Hs) as [H4 H5].
  rewrite prun_cons, (pstep_lex _ _ (LOpen [c])).
  - cbn [mbind option_bind]. rewrite prun_open_name by (intros ? ?; apply Hr; by right). by rewrite reverse_cons.
  - unfold lstep. rewrite (name_char_xml c Hc), H2, H4, H5. done.
Qed.

(** *** Attributes *)
(** 3.3.3 Attribute-value normalisation of one character *)
Definition attr_norm (c : N) : N := if xml_space c then 32%N else c.
Lemma prun_esca1 tag ats a acc b c : xml_char c = true →
  prun (LVal tag ats a 34 acc, b) (esca1 c) = Some (LVal tag ats a 34 (attr_norm c :: acc), b).
Proof.
  intros Hc. unfold esca1.
  destruct (N.eqb_spec c 38) as [->|]; [reflexivity|].
  destruct (N.eqb_spec c 39) as [->|]; [reflexivity|].
  destruct (N.eqb_spec c 34) as [->|]; [reflexivity|].
  destruct (N.eqb_spec c 60) as [->|]; [reflexivity|].
  destruct (N.eqb_spec c 62) as [->|]; [reflexivity|].
  cbn [prun]. unfold pstep. cbn [fst snd]. unfold lstep. rewrite Hc. cbn [negb].
  rewrite !(proj2 (N.eqb_neq _ _)) by done. reflexivity.
Qed.
Lemma prun_value tag ats a v : ∀ acc b, forallb xml_char v = true →
  prun (LVal tag ats a 34 acc, b) (escape_attrib v) = Some (LVal tag ats a 34 (reverse (map attr_norm v) ++ acc), b).
Proof.
  induction v as [|c s IH]; intros acc b H; [done|]. cbn [forallb] in H. apply andb_true_iff in H as [Hc H].
  rewrite escape_attrib_cons, prun_app, prun_esca1 by done. cbn [mbind option_bind].
  rewrite IH by done. cbn [map]. by rewrite reverse_cons, <- app_assoc.
Qed.
(** In a start tag, after the name or an attribute. *)
Definition tag_state (tag : pystr) (ats : attrs) : lstate :=
  match ats with [] => LOpen (reverse tag) | _ => LAfter (reverse tag) ats end.
Lemma tag_state_cons tag kv ats : tag_state tag (kv :: ats) = LAfter (reverse tag) (kv :: ats).
Proof. done. Qed.
Lemma tag_state_space tag ats b : pstep (tag_state tag ats, b) 32 = Some (LSpace (reverse tag) ats, b).
Proof. by destruct ats. Qed.
Lemma prun_attr tag ats k v b :
  is_name k = true → forallb xml_char v = true → k ∉ map fst ats →
  prun (tag_state tag ats, b) (attr_text (k, v)) = Some (tag_state tag ((k, map attr_norm v) :: ats), b).
Proof.
  intros Hk Hv Hn. unfold attr_text. cbn [fst snd]. rewrite (is_name_escape k Hk).
  match goal with |- context [u " " ++ ?x] => change (u " " ++ x) with (32%N :: x) end.
  rewrite prun_cons, tag_state_space. cbn [mbind option_bind].
  pose proof (is_name_inv k Hk) as (c & r & -> & Hs & Hr).
  assert (name_char c = true) as Hc by (apply Hr; left).
  destruct (name_char_neq c Hc) as (H1 & H2 & H3 & H4 & _).
  cbn [app]. rewrite prun_cons, (pstep_lex _ _ (LAttr (reverse tag) ats [c])).
  2:{ unfold lstep. rewrite (name_char_xml c Hc), H1, H2, H3. done. }
  cbn [mbind option_bind]. rewrite prun_app, prun_attr_name by (intros ? ?; apply Hr; by right). cbn [mbind option_bind].
  rewrite <- reverse_cons.
  match goal with |- context [u "=""" ++ ?x] => change (u "=""" ++ x) with (61%N :: 34%N :: x) end.
  rewrite prun_cons. rewrite (pstep_lex _ _ (LQuote (reverse tag) ats (reverse (c :: r)))) by done. cbn [mbind option_bind].
  rewrite prun_cons. rewrite (pstep_lex _ _ (LVal (reverse tag) ats (reverse (c :: r)) 34 [])) by done. cbn [mbind option_bind].
  rewrite prun_app, prun_value by done. cbn [mbind option_bind]. rewrite app_nil_r.
  change (u """") with [34%N]. rewrite prun_cons, (pstep_lex _ _ (LAfter (reverse tag) ((c :: r, map attr_norm v) :: ats))); [done|].
  unfold lstep. cbn [negb xml_char]. change (xml_char 34) with true. cbn [negb]. rewrite N.eqb_refl, !reverse_involutive, Hk.
  assert (existsb (λ kv : pystr * pystr, str_eqb (c :: r) (fst kv)) ats = false) as ->; [|done].
  apply not_true_iff_false. intros (kv & Hin & E%str_eqb_eq)%existsb_exists. apply Hn. rewrite E.
  apply elem_of_list_fmap. exists kv. split; [done|by apply elem_of_list_In].
Qed.
Definition norm_attr (kv : pystr * pystr) : pystr * pystr := (fst kv, map attr_norm (snd kv)).
Lemma prun_attrs tag b kvs : ∀ ats,
  NoDup (map fst kvs) → (∀ k, k ∈ map fst kvs → k ∉ map fst ats) →
  (∀ k v, (k, v) ∈ kvs → is_name k = true ∧ forallb xml_char v = true) →
  prun (tag_state tag ats, b) (mjoin (map attr_text kvs)) = Some (tag_state tag (reverse (map norm_attr kvs) ++ ats), b).
Proof.
  induction kvs as [|[k v] kvs IH]; intros ats Hnd Hdis Hok; [done|].
  cbn [map fst] in Hnd. apply NoDup_cons in Hnd as [Hnk Hnd].
  cbn [map].
  match goal with |- context [mjoin (?a :: ?b)] => change (mjoin (a :: b)) with (a ++ mjoin b) end.
  destruct (Hok k v ltac:(left)) as [Hk Hv].
  rewrite prun_app, prun_attr; [|done|done|apply Hdis; left].
  cbn [mbind option_bind]. rewrite IH.
  - rewrite reverse_cons, <- app_assoc. done.
  - done.
  - intros k' Hk'. cbn [map fst]. rewrite not_elem_of_cons. split; [by intros ->|]. apply Hdis. by right.
  - intros ? ? ?. apply Hok. by right.
Qed.

(** *** Sorting *)
Lemma insert_attr_perm kv xs : insert_attr kv xs ≡ₚ kv :: xs.
Proof.
  induction xs as [|kv' xs IH]; [done|]. cbn [insert_attr]. destruct (str_leb _ _); [done|].
  rewrite IH. apply Permutation_swap.
Qed.
Lemma sort_attrs_perm xs : sort_attrs xs ≡ₚ xs.
Proof. induction xs as [|kv xs IH]; [done|]. cbn [sort_attrs]. by rewrite insert_attr_perm, IH. Qed.
Lemma attr_norm_id v : forallb attr_char v = true → map attr_norm v = v.
Proof.
  induction v as [|c v IH]; [done|]. cbn [forallb map]. rewrite andb_true_iff. intros [Hc Hv]. rewrite IH by done. f_equal.
  unfold attr_norm. destruct (xml_space c) eqn:E; [|done]. unfold xml_space in E. unfold attr_char, data_char in Hc.
  rewrite !andb_true_iff, !negb_true_iff, !N.eqb_neq in Hc. destruct Hc as [[[? ?] ?] ?].
  rewrite !orb_true_iff, !N.eqb_eq in E. naive_solver.
Qed.
Lemma attr_char_xml v : forallb attr_char v = true → forallb xml_char v = true.
Proof.
  rewrite !forallb_forall. intros H x Hx. apply H in Hx. unfold attr_char, data_char in Hx.
  rewrite !andb_true_iff in Hx. tauto.
Qed.
(** [legal_attrs] without the restriction on white space. *)
Definition xml_attrs (a : attrs) : Prop :=
  NoDup (map fst a) ∧ ∀ k v, (k, v) ∈ a → is_name k = true ∧ forallb xml_char v = true.
Lemma legal_xml_attrs a : legal_attrs a → xml_attrs a.
Proof. intros [Hnd H]. split; [done|]. intros k v [? ?]%H. split; [done|by apply attr_char_xml]. Qed.
Lemma legal_norm_attrs a : legal_attrs a → map norm_attr (sort_attrs a) = sort_attrs a.
Proof.
  intros [_ H]. rewrite <- (map_id (sort_attrs a)) at 2. apply map_ext_in. intros [k v] Hin%elem_of_list_In.
  rewrite sort_attrs_perm in Hin. destruct (H _ _ Hin) as [_ Hv]. unfold norm_attr. cbn [fst snd]. by rewrite attr_norm_id.
Qed.

(** *** Open tags *)
Lemma prun_start tag a b : is_name tag = true → xml_attrs a →
  prun (LLt, b) (escape_cdata tag ++ attrs_text a) = Some (tag_state tag (reverse (map norm_attr (sort_attrs a))), b).
Proof.
  intros Ht [Hnd Ha]. rewrite (is_name_escape tag Ht), prun_app, prun_tag by done. cbn [mbind option_bind].
  change (LOpen (reverse tag)) with (tag_state tag []). unfold attrs_text. rewrite prun_attrs.
  - by rewrite app_nil_r.
  - by rewrite (sort_attrs_perm a).
  - intros ? ? []%elem_of_nil.
  - intros k v Hin. rewrite sort_attrs_perm in Hin. by apply Ha.
Qed.
Definition flush_text (acc : pystr) (b : bstate) : option bstate :=
  match acc with [] => Some b | _ => bstep b (TText (reverse acc)) end.
Lemma pstep_lt acc b b' : flush_text acc b = Some b' → pstep (LText acc, b) 60 = Some (LLt, b').
Proof.
  unfold flush_text, pstep. cbn [fst snd]. unfold lstep. change (xml_char 60) with true. cbn [negb].
  rewrite N.eqb_refl. destruct acc as [|c acc]; cbn [mbind option_bind bsteps]; [by intros [= ->]|].
  intros ->. done.
Qed.
Lemma tag_state_gt tag ats b b' : is_name tag = true → bstep b (TOpen tag ats false) = Some b' →
  pstep (tag_state tag (reverse ats), b) 62 = Some (LText [], b').
Proof.
  intros Ht E. unfold pstep. cbn [fst snd].
  assert (lstep (tag_state tag (reverse ats)) 62 = lopen (reverse tag) (reverse ats) false) as ->.
  { unfold tag_state. by destruct (reverse ats). }
  unfold lopen. rewrite !reverse_involutive, Ht. cbn [mbind option_bind bsteps]. by rewrite E.
Qed.
Lemma tag_state_selfclose tag ats b b' : is_name tag = true → bstep b (TOpen tag ats true) = Some b' →
  prun (tag_state tag (reverse ats), b) (u " />") = Some (LText [], b').
Proof.
  intros Ht E. change (u " />") with [32; 47; 62]%N.
  rewrite prun_cons, tag_state_space. cbn [mbind option_bind]. rewrite prun_cons, (pstep_lex _ _ (LSlash (reverse tag) (reverse ats))) by done.
  cbn [mbind option_bind]. rewrite prun_cons. unfold pstep. cbn [fst snd].
  assert (lstep (LSlash (reverse tag) (reverse ats)) 62 = lopen (reverse tag) (reverse ats) true) as -> by done.
  unfold lopen. rewrite !reverse_involutive, Ht. cbn [mbind option_bind bsteps]. rewrite E. done.
Qed.
(** The state after an element was added at [b]. *)
Definition put (b : bstate) (n : node) : bstate :=
  match b with
  | BProlog => BDone n
  | BIn (tag, ats, kids) outer => BIn (tag, ats, add_kid n kids) outer
  | BDone _ => b
  end.
Definition frames (b : bstate) : list frame :=
  match b with BIn top outer => top :: outer | _ => [] end.
Definition can_open (b : bstate) : Prop := match b with BDone _ => False | _ => True end.
Lemma bclose_put tag ats kids b : can_open b → bclose (tag, ats, kids) (frames b) = put b (NElem tag ats (reverse kids)).
Proof. destruct b as [|[[? ?] ?] ?|]; done. Qed.
Lemma bstep_open_sc tag ats b : can_open b → bstep b (TOpen tag ats true) = Some (put b (NElem tag ats [])).
Proof. destruct b as [|[[? ?] ?] ?|]; done. Qed.
Lemma bstep_open tag ats b : can_open b → bstep b (TOpen tag ats false) = Some (BIn (tag, ats, []) (frames b)).
Proof. destruct b as [|[[? ?] ?] ?|]; done. Qed.
Lemma prun_close tag b b' acc b0 : is_name tag = true → flush_text acc b0 = Some b → bstep b (TClose tag) = Some b' →
  prun (LText acc, b0) (close_text tag) = Some (LText [], b').
Proof.
  intros Ht Ef E. unfold close_text. rewrite (is_name_escape tag Ht).
  match goal with |- context [u "</" ++ ?x] => change (u "</" ++ x) with (60%N :: 47%N :: x) end.
  rewrite prun_cons, (pstep_lt _ _ _ Ef). cbn [mbind option_bind].
  rewrite prun_cons, (pstep_lex _ _ (LClose [])) by done. cbn [mbind option_bind].
  pose proof (is_name_inv tag Ht) as (c & r & _ & _ & Hr). rewrite prun_app, prun_close_name by done. cbn [mbind option_bind].
  rewrite app_nil_r. change (u ">") with [62%N]. rewrite prun_cons. unfold pstep. cbn [fst snd].
  assert (lstep (LClose (reverse tag)) 62 = lclose (reverse tag)) as -> by done.
  unfold lclose. rewrite reverse_involutive, Ht. cbn [mbind option_bind bsteps]. rewrite E. done.
Qed.

(** *** Comments *)
Lemma prun_comment_body s : ∀ n b, (n < 2)%nat → forallb xml_char s = true →
  no_double_hyphen ((if Nat.eqb n 0 then [] else [45%N]) ++ s) = true →
  ∃ m, (m < 2)%nat ∧ prun (LComment n, b) s = Some (LComment m, b).
Proof.
  induction s as [|c s IH]; intros n b Hn Hx Hh; [by exists n|]. cbn [forallb] in Hx. apply andb_true_iff in Hx as [Hc Hx].
  assert (lstep (LComment n) c = Some (LComment (if (c =? 45)%N then S n else 0), [])) as E.
  { unfold lstep. rewrite Hc. destruct n as [|[|n]]; [done|done|lia]. }
  rewrite prun_cons, (pstep_lex _ _ _ _ E). cbn [mbind option_bind]. destruct (N.eqb_spec c 45) as [->|Hne].
  - destruct n as [|[|]]; [|by cbn in Hh|lia]. apply IH; [lia|done|]. done.
  - apply IH; [lia|done|]. cbn [Nat.eqb app]. destruct n as [|[|]]; [| |lia]; cbn [Nat.eqb app] in Hh.
    + cbn [no_double_hyphen] in Hh. destruct c as [|p]; [done|]. do 6 (destruct p as [p|p|]; try done).
    + cbn [no_double_hyphen] in Hh. destruct c as [|p]; [done|]. do 6 (destruct p as [p|p|]; try done).
Qed.
Lemma ndh_cons c s : no_double_hyphen (c :: s) = negb ((c =? 45)%N && match s with d :: _ => (d =? 45)%N | [] => false end) && no_double_hyphen s.
Proof.
  assert (∀ c : N, (c =? 45)%N = false → no_double_hyphen (c :: s) = no_double_hyphen s) as H1.
  { intros [|p] Hp; [done|]. do 6 (destruct p as [p|p|]; try done). }
  destruct (c =? 45)%N eqn:E; cbn [andb negb]; [|by apply H1].
  apply N.eqb_eq in E as ->. destruct s as [|d s]; [done|]. destruct (d =? 45)%N eqn:E; cbn [andb negb].
  - apply N.eqb_eq in E as ->. done.
  - destruct d as [|p]; [done|]. do 6 (destruct p as [p|p|]; try done).
Qed.
Lemma ndh_spec s : no_double_hyphen s = true ↔ ∀ pre post, s ≠ pre ++ u "--" ++ post.
Proof.
  induction s as [|c s IH].
  - split; [|done]. intros _ [|] ?; done.
  - rewrite ndh_cons, andb_true_iff, IH, negb_true_iff, andb_false_iff. split.
    + intros [H1 H2] [|x pre] post E.
      * cbn in E. injection E as -> ->. destruct H1; done.
      * cbn in E. injection E as -> E. exact (H2 _ _ E).
    + intros H. split.
      * destruct (N.eqb_spec c 45) as [->|]; [right|by left]. destruct s as [|d s]; [done|].
        apply N.eqb_neq. intros ->. by apply (H [] s).
      * intros pre post ->. by apply (H (c :: pre) post).
Qed.
Lemma ndh_escape s : no_double_hyphen (escape_cdata s) = no_double_hyphen s.
Proof.
  induction s as [|c s IH]; [done|]. rewrite escape_cdata_cons, ndh_cons, <- IH. unfold esc1.
  destruct (N.eqb_spec c 38) as [->|]; [match goal with |- context [u "&amp;" ++ ?x] => change (u "&amp;" ++ x) with (38 :: 97 :: 109 :: 112 :: 59 :: x)%N end; rewrite !ndh_cons; done|].
  destruct (N.eqb_spec c 60) as [->|]; [match goal with |- context [u "&lt;" ++ ?x] => change (u "&lt;" ++ x) with (38 :: 108 :: 116 :: 59 :: x)%N end; rewrite !ndh_cons; done|].
  destruct (N.eqb_spec c 62) as [->|]; [match goal with |- context [u "&gt;" ++ ?x] => change (u "&gt;" ++ x) with (38 :: 103 :: 116 :: 59 :: x)%N end; rewrite !ndh_cons; done|].
  cbn [app]. rewrite ndh_cons. f_equal. f_equal. f_equal. destruct s as [|d s]; [done|].
  rewrite escape_cdata_cons. unfold esc1.
  destruct (N.eqb_spec d 38) as [->|]; [done|]. destruct (N.eqb_spec d 60) as [->|]; [done|].
  destruct (N.eqb_spec d 62) as [->|]; [done|]. done.
Qed.
Lemma escape_xml_char s : forallb xml_char s = true → forallb xml_char (escape_cdata s) = true.
Proof.
  rewrite !forallb_forall. intros H x Hx%elem_of_list_In. apply escape_cdata_in in Hx as [Hx|[_ Hx]]; [|done].
  apply H. by apply elem_of_list_In.
Qed.
Lemma prun_comment s b : forallb xml_char s = true → no_double_hyphen s = true →
  prun (LLt, b) (u "!-- " ++ escape_cdata s ++ u " -->") = Some (LText [], b).
Proof.
  intros Hx Hh. rewrite prun_app. change (prun (LLt, b) (u "!-- ")) with (Some (LComment 0, b)). cbn [mbind option_bind].
  rewrite prun_app. destruct (prun_comment_body (escape_cdata s) 0 b) as (m & Hm & ->); [lia|by apply escape_xml_char|cbn [Nat.eqb app]; by rewrite ndh_escape|].
  cbn [mbind option_bind]. destruct m as [|[|m]]; [destruct b as [|[[? ?] ?]|]; reflexivity..|lia].
Qed.
Lemma prun_comment_bad e rest : ∀ n b, (n < 2)%nat → 62%N ∉ e →
  no_double_hyphen ((if Nat.eqb n 0 then [] else [45%N]) ++ e) = false →
  prun (LComment n, b) (e ++ 32%N :: rest) = None.
Proof.
  induction e as [|c e IH]; intros n b Hn H62 Hh.
  - destruct n as [|[|]]; done.
  - apply not_elem_of_cons in H62 as [H62 H62'].
    cbn [app]. rewrite prun_cons. destruct (xml_char c) eqn:Hc.
    2:{ unfold pstep. cbn [fst snd]. unfold lstep. by rewrite Hc. }
    assert (lstep (LComment n) c = Some (LComment (if (c =? 45)%N then S n else 0), [])) as E.
    { unfold lstep. rewrite Hc. destruct n as [|[|n]]; [done|done|lia]. }
    rewrite (pstep_lex _ _ _ _ E). cbn [mbind option_bind].
    destruct (N.eqb_spec c 45) as [->|Hne].
    + destruct n as [|[|]]; [apply IH; [lia|done|done]| |lia].
      destruct e as [|d e]; [done|]. apply not_elem_of_cons in H62' as [H62' _]. cbn [app]. rewrite prun_cons.
      unfold pstep. cbn [fst snd]. unfold lstep. rewrite (proj2 (N.eqb_neq d 62)) by done. by destruct (xml_char d).
    + apply IH; [lia|done|]. cbn [Nat.eqb app]. apply N.eqb_neq in Hne.
      destruct n as [|[|]]; [| |lia]; cbn [Nat.eqb app] in Hh.
      * by rewrite ndh_cons, Hne in Hh.
      * rewrite !ndh_cons, Hne in Hh. by rewrite andb_false_r in Hh.
Qed.

(** *** Calls inside an element *)
(** Children collected (reversed) and pending character data (reversed). *)
Definition flush_kids (acc : pystr) (kids : list node) : list node :=
  match acc with [] => kids | _ => add_kid (NText (reverse acc)) kids end.
Lemma flush_text_in acc tag ats kids outer :
  flush_text acc (BIn (tag, ats, kids) outer) = Some (BIn (tag, ats, flush_kids acc kids) outer).
Proof. by destruct acc. Qed.

(** The state after the calls; [f] gives the element a call adds. *)
Definition den1 (f : call → node) (s : pystr * list node) (c : call) : pystr * list node :=
  match c with
  | CData t => (reverse t ++ fst s, snd s)
  | CComment _ => ([10%N], flush_kids (fst s) (snd s))
  | _ => ([], f c :: flush_kids (fst s) (snd s))
  end.
Definition den (f : call → node) (s : pystr * list node) (l : list call) : pystr * list node :=
  fold_left (den1 f) l s.

(** No empty text, no adjacent text. *)
Definition is_text (n : node) : bool := match n with NText _ => true | _ => false end.
Fixpoint nf_kids (l : list node) : Prop :=
  match l with
  | [] => True
  | n :: r => n ≠ NText [] ∧ match r with n' :: _ => is_text n && is_text n' = false | [] => True end ∧ nf_kids r
  end.
Lemma merge_nf kids : ∀ rest, nf_kids kids →
  match kids, merge_text rest with n :: _, n' :: _ => is_text n && is_text n' = false | _, _ => True end →
  merge_text (reverse kids ++ rest) = reverse kids ++ merge_text rest.
Proof.
  induction kids as [|n kids IH]; intros rest Hnf Hh; [done|]. destruct Hnf as (Hn & Hadj & Hnf).
  assert (merge_text (n :: rest) = n :: merge_text rest) as E.
  { cbn [merge_text]. destruct n as [s|]; [|done]. destruct s as [|c s]; [done|].
    destruct (merge_text rest) as [|[s'|] r]; done. }
  rewrite reverse_cons, <- !app_assoc. cbn [app]. rewrite IH.
  - by rewrite E.
  - done.
  - rewrite E. destruct kids as [|n' kids]; [done|]. by rewrite andb_comm.
Qed.
Lemma merge_text_text s s' b : merge_text (NText s :: NText s' :: b) = merge_text (NText (s ++ s') :: b).
Proof.
  cbn [merge_text]. destruct s as [|c s]; [done|]. cbn [app]. destruct s' as [|c' s'].
  - rewrite app_nil_r. done.
  - destruct (merge_text b) as [|[t|] r]; cbn; try done. by rewrite <- app_assoc.
Qed.
Lemma merge_text_app a b b' : merge_text b = merge_text b' → merge_text (a ++ b) = merge_text (a ++ b').
Proof. intros E. induction a as [|n a IH]; [done|]. cbn [app merge_text]. by rewrite IH. Qed.
Lemma flush_merge acc kids rest :
  merge_text (reverse kids ++ NText (reverse acc) :: rest) = merge_text (reverse (flush_kids acc kids) ++ rest).
Proof.
  destruct acc as [|c acc]; [apply merge_text_app; done|]. unfold flush_kids. generalize (reverse (c :: acc)); intros t.
  destruct kids as [|[s|] kids]; cbn [add_kid]; rewrite ?reverse_cons, <- ?app_assoc; cbn [app].
  - done.
  - apply merge_text_app. apply merge_text_text.
  - done.
Qed.
Lemma nf_add_text s kids : s ≠ [] → nf_kids kids → nf_kids (add_kid (NText s) kids).
Proof.
  intros Hs Hk. destruct kids as [|[s'|] kids]; cbn [add_kid nf_kids] in *.
  - split_and!; [congruence|done|done].
  - destruct Hk as (H1 & H2 & H3). split_and!; [|done|done].
    intros [= H]. apply app_eq_nil in H as [-> ->]. done.
  - split_and!; try done; [congruence|by destruct Hk as (? & ? & ?)..].
Qed.
Lemma nf_flush acc kids : nf_kids kids → nf_kids (flush_kids acc kids).
Proof.
  intros H. destruct acc as [|c acc]; [done|]. apply nf_add_text; [|done]. intros E.
  apply (f_equal length) in E. rewrite reverse_length in E. done.
Qed.
Definition is_elem (n : node) : bool := negb (is_text n).
Lemma den_merge f l : ∀ acc kids, nf_kids kids →
  (∀ c, c ∈ l → match c with CElem _ _ _ _ | CElement _ _ _ => f c = call_node c | _ => True end) →
  reverse (flush_kids (fst (den f (acc, kids) l)) (snd (den f (acc, kids) l))) =
  merge_text (reverse kids ++ NText (reverse acc) :: map call_node l).
Proof.
  induction l as [|c l IH]; intros acc kids Hnf Hf.
  - cbn [den fold_left fst snd map]. rewrite flush_merge, merge_nf; [by rewrite app_nil_r|by apply nf_flush|].
    by destruct (flush_kids acc kids).
  - change (den f (acc, kids) (c :: l)) with (den f (den1 f (acc, kids) c) l).
    assert (∀ c, c ∈ l → match c with CElem _ _ _ _ | CElement _ _ _ => f c = call_node c | _ => True end) as Hf' by (intros ? ?; apply Hf; by right).
    assert (∀ n, is_elem n = true → nf_kids (n :: flush_kids acc kids)) as Hel.
    { intros n Hn. cbn [nf_kids]. split_and!; [by destruct n| |by apply nf_flush]. destruct n; [done|]. by destruct (flush_kids acc kids). }
    destruct c as [s|tag a body named|tag text a|s]; cbn [den1 fst snd].
    + rewrite IH by done. apply merge_text_app. cbn [map call_tree]. rewrite reverse_app, reverse_involutive. symmetry. apply merge_text_text.
    + rewrite IH; [|apply Hel; by rewrite (Hf _ ltac:(left))|done].
      rewrite (Hf _ ltac:(left)). cbn [map]. rewrite reverse_cons, <- app_assoc. cbn [app]. rewrite flush_merge. apply merge_text_app.
      destruct (call_node _); done.
    + rewrite IH; [|apply Hel; by rewrite (Hf _ ltac:(left))|done].
      rewrite (Hf _ ltac:(left)). cbn [map]. rewrite reverse_cons, <- app_assoc. cbn [app]. rewrite flush_merge. apply merge_text_app.
      destruct (call_node _); done.
    + rewrite IH; [|by apply nf_flush|done]. cbn [map call_tree]. symmetry; by rewrite flush_merge.
Qed.
Lemma den_fin f l :
  (∀ c, c ∈ l → match c with CElem _ _ _ _ | CElement _ _ _ => f c = call_node c | _ => True end) →
  reverse (flush_kids (fst (den f ([], []) l)) (snd (den f ([], []) l))) = merge_text (map call_node l).
Proof. intros H. by rewrite den_merge. Qed.

(** After "<": an element is read and added to the tree. *)
Definition element_ok (c : call) : Prop :=
  match c with
  | CElem _ _ _ _ | CElement _ _ _ =>
      ∃ r, render c = 60%N :: r ∧ ∀ b, can_open b → prun (LLt, b) r = Some (LText [], put b (call_node c))
  | _ => True
  end.
Lemma prun_calls l tag ats outer : (∀ c, c ∈ l → legal c) → (∀ c, c ∈ l → element_ok c) → ∀ acc kids,
  prun (LText acc, BIn (tag, ats, kids) outer) (mjoin (map render l)) =
  Some (LText (fst (den call_node (acc, kids) l)), BIn (tag, ats, snd (den call_node (acc, kids) l)) outer).
Proof.
  induction l as [|c l IH]; intros Hl He acc kids; [done|].
  change (mjoin (map render (c :: l))) with (render c ++ mjoin (map render l)).
  change (den call_node (acc, kids) (c :: l)) with (den call_node (den1 call_node (acc, kids) c) l).
  assert (∀ acc kids, prun (LText acc, BIn (tag, ats, kids) outer) (render c) =
    Some (LText (fst (den1 call_node (acc, kids) c)), BIn (tag, ats, snd (den1 call_node (acc, kids) c)) outer)) as Hc.
  { clear acc kids. intros acc kids. specialize (Hl c ltac:(left)). specialize (He c ltac:(left)).
    destruct c as [s|tag' a body named|tag' text a|s]; cbn [den1 fst snd].
    - inversion_clear Hl. cbn [render]. rewrite prun_text by (by apply data_char_xml). done.
    - destruct He as (r & -> & Hr). rewrite prun_cons, (pstep_lt _ _ _ (flush_text_in _ _ _ _ _)). cbn [mbind option_bind].
      rewrite Hr by done. done.
    - destruct He as (r & -> & Hr). rewrite prun_cons, (pstep_lt _ _ _ (flush_text_in _ _ _ _ _)). cbn [mbind option_bind].
      rewrite Hr by done. done.
    - inversion_clear Hl. cbn [render]. 
      assert (u "<!-- " ++ escape_cdata s ++ u " -->" ++ [10%N] = 60%N :: (u "!-- " ++ escape_cdata s ++ u " -->") ++ [10%N]) as ->
        by (cbn [app u]; rewrite <- !app_assoc; done).
      rewrite prun_cons, (pstep_lt _ _ _ (flush_text_in _ _ _ _ _)). cbn [mbind option_bind].
      rewrite prun_app, prun_comment by (try done; by apply data_char_xml). done. }
  rewrite prun_app, Hc. cbn [mbind option_bind]. rewrite IH.
  - by rewrite <- surjective_pairing.
  - intros ? ?. apply Hl. by right.
  - intros ? ?. apply He. by right.
Qed.
Lemma element_calls tag a body : is_name tag = true → legal_attrs a → body ≠ [] →
  (∀ c, c ∈ body → legal c) → (∀ c, c ∈ body → element_ok c) → ∀ b, can_open b →
  prun (LLt, b) ((escape_cdata tag ++ attrs_text a) ++ u ">" ++ mjoin (map render body) ++ close_text tag) =
  Some (LText [], put b (NElem tag (sort_attrs a) (merge_text (map call_node body)))).
Proof.
  intros Ht Ha Hne Hl He b Hb. rewrite prun_app, prun_start by (try done; by apply legal_xml_attrs). cbn [mbind option_bind].
  rewrite legal_norm_attrs by done. change (u ">") with [62%N]. cbn [app]. rewrite prun_cons.
  rewrite (tag_state_gt _ _ _ _ Ht (bstep_open _ _ _ Hb)). cbn [mbind option_bind].
  rewrite prun_app, prun_calls by done. cbn [mbind option_bind].
  erewrite (prun_close _ _ _ _ _ Ht (flush_text_in _ _ _ _ _)).
  2:{ unfold bstep. rewrite str_eqb_refl. reflexivity. }
  rewrite bclose_put by done. rewrite den_fin; [done|].
  intros c _. by destruct c.
Qed.
Fixpoint call_element_ok (c : call) : legal c → element_ok c.
Proof.
  destruct c as [s|tag a body named|tag text a|s]; intros Hl; cbn [element_ok]; try done.
  - inversion_clear Hl as [|? ? ? ? Ht Ha Hb| |].
    assert (∀ c, c ∈ body → element_ok c) as He.
    { clear -call_element_ok Hb. induction body as [|c body IH]; intros c' Hin; [by apply elem_of_nil in Hin|].
      apply elem_of_cons in Hin as [->|Hin]; [apply call_element_ok, Hb; left|]. apply IH; [|done].
      intros ? ?. apply Hb. by right. }
    eexists. split; [reflexivity|]. intros b Hop. destruct body as [|c body].
    + rewrite prun_app, prun_start by (try done; by apply legal_xml_attrs). cbn [mbind option_bind]. rewrite legal_norm_attrs by done.
      rewrite (tag_state_selfclose _ _ _ _ Ht (bstep_open_sc _ _ _ Hop)). done.
    + apply element_calls; done.
  - inversion_clear Hl as [| |? ? ? Ht Ha Htx|].
    eexists. split; [reflexivity|]. intros b Hop.
    assert (prun (LLt, b) ((escape_cdata tag ++ attrs_text a) ++ u " />") = Some (LText [], put b (NElem tag (sort_attrs a) []))) as Hempty.
    { rewrite prun_app, prun_start by (try done; by apply legal_xml_attrs). cbn [mbind option_bind]. rewrite legal_norm_attrs by done.
      by rewrite (tag_state_selfclose _ _ _ _ Ht (bstep_open_sc _ _ _ Hop)). }
    destruct text as [[|c s]|]; cbn [call_tree default merge_text]; [exact Hempty| |exact Hempty].
    pose proof (element_calls tag a [CData (c :: s)] Ht Ha ltac:(done)) as He.
    cbn [map call_tree merge_text render] in He. change (mjoin [escape_cdata (c :: s)]) with (escape_cdata (c :: s) ++ []) in He.
    rewrite app_nil_r in He. apply He; [| |done].
    + intros ? ->%elem_of_list_singleton. by constructor.
    + by intros ? ->%elem_of_list_singleton.
Qed.
