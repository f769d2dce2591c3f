(** The Python 2 us-ascii path of the escape functions. *)
From Coq Require Import String ZArith Lia.
From stdpp Require Import prelude.
From Verif Require Import PyStr PyHeap XmlWriter XmlSpec XmlCalls EscapeFacts DigitFacts.

Lemma expand_in_ref ds : ∀ acc s, 59%N ∉ ds → expand_in (Some acc) (ds ++ s) = expand_in (Some (reverse ds ++ acc)) s.
Proof.
  induction ds as [|d ds IH]; intros acc s Hn; [done|]. apply not_elem_of_cons in Hn as [Hd Hn].
  cbn [app expand_in]. destruct (N.eqb_spec d 59); [congruence|]. rewrite IH by done.
  by rewrite reverse_cons, <- app_assoc.
Qed.
Lemma expand_charref c s : xml_char c = true →
  expand_in None ((u "&#" ++ show_nat c ++ u ";") ++ s) = (c ::.) <$> expand_in None s.
Proof.
  intros Hc. destruct (show_nat_spec c) as (d & ds & E & Hf & Hv). rewrite E.
  assert (59%N ∉ 35%N :: d :: ds) as Hn.
  { rewrite not_elem_of_cons. split; [done|]. intros Hin. rewrite Forall_forall in Hf.
    specialize (Hf _ Hin). done. }
  change (expand_in None ((u "&#" ++ (d :: ds) ++ u ";") ++ s))
    with (expand_in (Some []) (((35%N :: d :: ds) ++ u ";") ++ s)).
  rewrite <- app_assoc, expand_in_ref by done. rewrite app_nil_r.
  change (u ";" ++ s) with (59%N :: s). cbn [expand_in]. rewrite N.eqb_refl, reverse_involutive.
  assert (is_digit d = true) as Hd by (by apply Forall_cons in Hf as [? _]).
  assert (expand_ref (35%N :: d :: ds) = Some c) as ->; [|done].
  assert (expand_ref (35%N :: d :: ds) = checked (dec_val 0 (d :: ds))) as ->.
  { unfold is_digit in Hd. rewrite andb_true_iff, !N.leb_le in Hd. destruct Hd as [Hd1 Hd2].
    cbn [expand_ref]. destruct d as [|q]; [lia|]. do 7 (destruct q as [q|q|]; try (exfalso; lia); try reflexivity). }
  rewrite dec_val_digits, Hv. unfold checked. simpl. by rewrite Hc.
Qed.
Lemma expand_entity_sub t : (∀ c, c ∈ t → entity_char c = true → xml_char c = true) → expand (entity_sub t) = Some t.
Proof.
  unfold expand, entity_sub. induction t as [|c t IH]; intros Ht; [done|]. cbn [map]. 
  change (mjoin (?a :: ?b)) with (a ++ mjoin b). cbn [mjoin list_join]. destruct (entity_char c) eqn:E.
  - rewrite expand_charref by (apply Ht; [left|done]). rewrite IH; [done|]. intros ? ?. apply Ht. by right.
  - cbn [app expand_in]. destruct (N.eqb_spec c 38) as [->|]; [done|]. rewrite IH; [done|]. intros ? ?. apply Ht. by right.
Qed.

Lemma is_ascii_app a b : is_ascii (a ++ b) = is_ascii a && is_ascii b.
Proof. unfold is_ascii. apply forallb_app. Qed.
Lemma is_ascii_escape s : is_ascii (escape_cdata s) = is_ascii s.
Proof.
  induction s as [|c s IH]; [done|]. rewrite escape_cdata_cons, is_ascii_app, IH.
  change (is_ascii (c :: s)) with ((c <? 128)%N && is_ascii s). f_equal.
  unfold esc1. destruct (N.eqb_spec c 38) as [->|]; [done|]. destruct (N.eqb_spec c 60) as [->|]; [done|].
  destruct (N.eqb_spec c 62) as [->|]; [done|]. unfold is_ascii. simpl. apply andb_true_r.
Qed.
Lemma is_ascii_entity_sub t : (∀ c, c ∈ t → (c <= 65535)%N) → is_ascii (entity_sub t) = true.
Proof.
  unfold entity_sub. induction t as [|c t IH]; intros Ht; [done|]. cbn [map].
  match goal with |- context [mjoin (?a :: ?b)] => change (mjoin (a :: b)) with (a ++ mjoin b) end.
  rewrite is_ascii_app, IH by (intros ? ?; apply Ht; by right). rewrite andb_true_r.
  destruct (entity_char c) eqn:E.
  - rewrite !is_ascii_app. destruct (show_nat_spec c) as (d & ds & -> & Hf & _). rewrite !andb_true_iff. split_and!; [done| |done].
    unfold is_ascii. apply forallb_forall. intros x Hx%elem_of_list_In. rewrite Forall_forall in Hf. specialize (Hf x Hx).
    unfold is_digit in Hf. rewrite andb_true_iff, !N.leb_le in Hf. apply N.ltb_lt. lia.
  - unfold is_ascii. simpl. rewrite andb_true_r. apply N.ltb_lt. specialize (Ht c ltac:(left)).
    unfold entity_char in E. apply orb_false_iff in E as [_ E]. apply andb_false_iff in E as [E|E]; apply N.leb_gt in E; lia.
Qed.
Lemma escape_cdata_id s : escape_cdata s = s ↔ ∀ c, c ∈ s → c ≠ 38%N ∧ c ≠ 60%N ∧ c ≠ 62%N.
Proof.
  split.
  - intros E c Hc. split_and!.
    + intros ->. apply elem_of_list_split in Hc as (a & b & Hs).
      assert (length s < length (escape_cdata s)); [|rewrite E in *; lia].
      rewrite Hs, escape_cdata_app, escape_cdata_cons, !app_length. cbn [length].
      assert (∀ t, length t <= length (escape_cdata t)) as Hlen.
      { clear. induction t as [|c t IH]; [done|]. rewrite escape_cdata_cons, app_length. cbn [length].
        assert (1 <= length (esc1 c)); [|lia]. unfold esc1. repeat case_match; simpl; lia. }
      pose proof (Hlen a). pose proof (Hlen b). change (length (esc1 38)) with 5. lia.
    + intros ->. rewrite <- E in Hc. apply escape_cdata_chars in Hc as [? ?]; congruence.
    + intros ->. rewrite <- E in Hc. apply escape_cdata_chars in Hc as [? ?]; congruence.
  - induction s as [|c s IH]; intros Hs; [done|]. rewrite escape_cdata_cons, IH by (intros ? ?; apply Hs; by right).
    destruct (Hs c ltac:(left)) as (H1 & H2 & H3). unfold esc1.
    by rewrite (proj2 (N.eqb_neq _ _) H1), (proj2 (N.eqb_neq _ _) H2), (proj2 (N.eqb_neq _ _) H3).
Qed.
Lemma escape_cdata_in s c : c ∈ escape_cdata s → c ∈ s ∨ (c < 128)%N ∧ xml_char c = true.
Proof.
  induction s as [|d s IH]; [by intros ?%elem_of_nil|]. rewrite escape_cdata_cons.
  assert (∀ t : pystr, forallb (λ c, (c <? 128)%N && xml_char c) t = true → c ∈ t → (c < 128)%N ∧ xml_char c = true) as Hd.
  { intros t Ht Hin. rewrite forallb_forall in Ht. specialize (Ht c). rewrite <- elem_of_list_In in Ht.
    apply Ht in Hin. by rewrite andb_true_iff, N.ltb_lt in Hin. }
  intros [Hc|Hc]%elem_of_app.
  - unfold esc1 in Hc.
    destruct (d =? 38)%N; [right; by eapply Hd in Hc|]. destruct (d =? 60)%N; [right; by eapply Hd in Hc|].
    destruct (d =? 62)%N; [right; by eapply Hd in Hc|]. apply elem_of_list_singleton in Hc as ->. left. left.
  - destruct (IH Hc); [left; by right|by right].
Qed.

Lemma py2_exact s : (∀ c, c ∈ s → (c <= 65535)%N ∧ xml_char c = true) →
  ∃ e, escape_cdata_py2 s = Some e ∧
    (expand e = Some s ↔ is_ascii s = true ∨ ∀ c, c ∈ s → c ≠ 38%N ∧ c ≠ 60%N ∧ c ≠ 62%N).
Proof.
  intros Hs. unfold escape_cdata_py2. rewrite is_ascii_escape. destruct (is_ascii s) eqn:E.
  - exists (escape_cdata s). split; [done|]. split; [by left|]. intros _. apply expand_escape_cdata.
  - assert (∀ c, c ∈ escape_cdata s → (c <= 65535)%N ∧ xml_char c = true) as He.
    { intros c [?|[? ?]]%escape_cdata_in; [by apply Hs|]. split; [lia|done]. }
    exists (entity_sub (escape_cdata s)). split.
    + unfold encode_entity. rewrite is_ascii_entity_sub; [done|]. intros c Hc. by apply He.
    + rewrite expand_entity_sub by (intros c Hc _; by apply He). rewrite <- escape_cdata_id. split.
      * intros [= ->]. by right.
      * intros [?| ->]; done.
Qed.
