(** The text conversions of the reader agree with their specification. *)
From Coq Require Import String.
From stdpp Require Import prelude gmap.
From Verif Require Import PyStr PyHeap Schema Assoc AssocSpec Reader ReaderSpec DigitFacts.
Local Open Scope N_scope.

Lemma is_digit_iff c : is_digit c = true ↔ ∃ d, d < 10 ∧ c = 48 + d.
Proof.
  unfold is_digit. rewrite andb_true_iff, !N.leb_le. split.
  - intros [? ?]. exists (c - 48). lia.
  - intros (d & ? & ->). lia.
Qed.
Lemma int_digits_sound s : ∀ p acc af n,
  (p = [] ∧ acc = 0 ∧ af = false ∨ af = true ∧ int_body p acc ∨ af = false ∧ ∃ p0, p = p0 ++ [95] ∧ int_body p0 acc) →
  int_digits acc af s = Some n → int_body (p ++ s) n.
Proof.
  induction s as [|c s IH]; intros p acc af n Hst; cbn [int_digits].
  { destruct Hst as [(-> & -> & ->)|[(-> & Hb)|(-> & _)]]; try done. intros [= <-]. by rewrite app_nil_r. }
  destruct (is_digit c) eqn:Ed.
  - apply is_digit_iff in Ed as (d & Hd & ->). intros E. change (int_body (p ++ [48 + d] ++ s) n). rewrite (assoc_L (++)).
    revert E. apply IH. right. left. split; [done|]. replace (48 + d - 48) with d by lia.
    destruct Hst as [(-> & -> & ->)|[(-> & Hb)|(-> & p0 & -> & Hb)]].
    + by constructor.
    + by constructor.
    + rewrite <- (assoc_L (++)). by constructor.
  - destruct (N.eqb_spec c 95) as [->|]; [|done]. destruct af; [|done]. cbn [andb]. intros E.
    change (int_body (p ++ [95] ++ s) n). rewrite (assoc_L (++)).
    revert E. apply IH. right. right.
    destruct Hst as [(? & ? & ?)|[(_ & Hb)|(? & _)]]; try done. eauto.
Qed.
Lemma int_digits_complete s n : int_body s n → ∀ r, int_digits 0 false (s ++ r) = int_digits n true r.
Proof.
  induction 1 as [d Hd|s n d Hb IH Hd|s n d Hb IH Hd]; intros r.
  - cbn [app int_digits]. rewrite (proj2 (is_digit_iff (48 + d))) by eauto. f_equal. lia.
  - rewrite <- (assoc_L (++)), IH. cbn [app int_digits]. rewrite (proj2 (is_digit_iff (48 + d))) by eauto. f_equal. lia.
  - rewrite <- (assoc_L (++)), IH. cbn [app int_digits]. change (is_digit 95) with false.
    rewrite (proj2 (is_digit_iff (48 + d))) by eauto. cbn [N.eqb andb]. change (95 =? 95) with true. cbn [andb]. f_equal. lia.
Qed.
Lemma parse_nat_iff s n : parse_nat s = Some n ↔ int_body s n.
Proof.
  unfold parse_nat. split.
  - intros E. apply (int_digits_sound s [] 0 false n) in E; [done|]. auto.
  - intros Hb. rewrite <- (app_nil_r s), (int_digits_complete s n Hb). done.
Qed.

Lemma is_space_iff c : is_space c = true ↔ blank_char c.
Proof.
  unfold is_space, blank_char. rewrite !orb_true_iff, !andb_true_iff, N.eqb_eq, !N.leb_le, !elem_of_cons.
  split.
  - intros [[->|?]|?]; [tauto| |]; assert (c = 9 ∨ c = 10 ∨ c = 11 ∨ c = 12 ∨ c = 13 ∨ c = 28 ∨ c = 29 ∨ c = 30 ∨ c = 31) by lia; tauto.
  - intros H. rewrite elem_of_nil in H. repeat destruct H as [->|H]; lia.
Qed.
Lemma lstrip_split s : ∃ ws, s = ws ++ lstrip s ∧ Forall blank_char ws.
Proof.
  induction s as [|c s (ws & E & Hw)]; [by exists []|]. cbn [lstrip]. destruct (is_space c) eqn:Ec.
  - exists (c :: ws). split; [cbn; by rewrite <- E|]. constructor; [by apply is_space_iff|done].
  - by exists [].
Qed.
Lemma lstrip_app ws s : Forall blank_char ws → lstrip (ws ++ s) = lstrip s.
Proof. induction 1 as [|c ws Hc Hw IH]; [done|]. cbn [app lstrip]. by rewrite (proj2 (is_space_iff c) Hc). Qed.
Lemma strip_split s : ∃ ws1 ws2, s = ws1 ++ strip s ++ ws2 ∧ Forall blank_char ws1 ∧ Forall blank_char ws2.
Proof.
  destruct (lstrip_split s) as (ws1 & E1 & H1). destruct (lstrip_split (reverse (lstrip s))) as (ws2 & E2 & H2).
  exists ws1, (reverse ws2). split_and!; [|done|by apply Forall_reverse]. rewrite E1 at 1. f_equal. unfold strip.
  rewrite <- reverse_app, <- E2. by rewrite reverse_involutive.
Qed.
Lemma strip_app ws1 s ws2 : Forall blank_char ws1 → Forall blank_char ws2 →
  (∀ c, head s = Some c → is_space c = false) → (∀ c, last s = Some c → is_space c = false) → s ≠ [] →
  strip (ws1 ++ s ++ ws2) = s.
Proof.
  intros H1 H2 Hh Hl Hn. unfold strip. rewrite lstrip_app by done. destruct s as [|c s]; [done|].
  cbn [app]. rewrite lstrip_nonspace by (by apply Hh). change (c :: s ++ ws2) with ((c :: s) ++ ws2).
  rewrite reverse_app, lstrip_app by (by apply Forall_reverse).
  destruct (reverse (c :: s)) as [|d r] eqn:E.
  { apply (f_equal reverse) in E. by rewrite reverse_involutive in E. }
  rewrite lstrip_nonspace, <- E; [apply reverse_involutive|]. apply Hl.
  rewrite <- (reverse_involutive (c :: s)), E, reverse_cons. by rewrite last_snoc.
Qed.
Lemma int_body_ends s n : int_body s n → s ≠ [] ∧ (∀ c, head s = Some c → is_digit c = true) ∧ (∀ c, last s = Some c → is_digit c = true).
Proof.
  assert (∀ d, d < 10 → is_digit (48 + d) = true) as Hd by (intros; apply is_digit_iff; eauto).
  induction 1 as [d ?|s n d Hb (IH1 & IH2 & IH3) ?|s n d Hb (IH1 & IH2 & IH3) ?].
  - split_and!; [done|by intros ? [= <-]; apply Hd..].
  - split_and!; [by destruct s| |].
    + destruct s; [done|]. apply IH2.
    + intros c. rewrite last_snoc. intros [= <-]. by apply Hd.
  - split_and!; [by destruct s| |].
    + destruct s; [done|]. apply IH2.
    + intros c. change [95; 48 + d] with ([95] ++ [48 + d]). rewrite (assoc_L (++)), last_snoc. intros [= <-]. by apply Hd.
Qed.
Lemma parse_int_iff t z : parse_int t = Some z ↔ int_literal t z.
Proof.
  split.
  - destruct (strip_split t) as (ws1 & ws2 & E & H1 & H2). unfold parse_int, int_literal. intros Hp. setoid_rewrite E at 1.
    assert (∀ r n (sg : pystr), strip t = sg ++ r → parse_nat r = Some n →
      ((sg = [] ∨ sg = u "+") ∧ z = Z.of_N n ∨ sg = u "-" ∧ z = (- Z.of_N n)%Z) → 
      ∃ ws3 sign s ws4 n0, ws1 ++ strip t ++ ws2 = ws3 ++ sign ++ s ++ ws4 ∧ Forall blank_char ws3 ∧ Forall blank_char ws4 ∧
        int_body s n0 ∧ ((sign = [] ∨ sign = u "+") ∧ z = Z.of_N n0 ∨ sign = u "-" ∧ z = (- Z.of_N n0)%Z)) as Hmk.
    { intros r n sg Es Hn Hz. exists ws1, sg, r, ws2, n. rewrite Es, <- (assoc_L (++)). split_and!; try done. by apply parse_nat_iff. }
    clear E. destruct (strip t) as [|c r] eqn:Est; [done|].
    destruct (N.eqb_spec c 45) as [->|H45]; [|destruct (N.eqb_spec c 43) as [->|H43]].
    + destruct (parse_nat r) as [n|] eqn:En; [|done]. simpl in Hp. simplify_eq. apply (Hmk r n (u "-")); auto.
    + destruct (parse_nat r) as [n|] eqn:En; [|done]. simpl in Hp. simplify_eq. apply (Hmk r n (u "+")); auto.
    + assert (∃ n, parse_nat (c :: r) = Some n ∧ z = Z.of_N n) as (n & En & ->).
      { destruct c as [|c]; [|do 6 (destruct c as [c|c|]; try done)];
          (destruct (parse_nat _) as [n|] eqn:En; simpl in Hp; [simplify_eq; by exists n|done]). }
      apply (Hmk (c :: r) n []); auto.
  - intros (ws1 & sg & s & ws2 & n & -> & H1 & H2 & Hb & Hz).
    pose proof (proj2 (parse_nat_iff s n) Hb) as Hn. destruct (int_body_ends s n Hb) as (Hne & Hh & Hl).
    assert (∀ c, is_digit c = true → is_space c = false) as Hds by apply digit_nonspace.
    assert (sg = [] ∨ sg = u "+" ∨ sg = u "-") as Hsg by naive_solver.
    assert (strip (ws1 ++ sg ++ s ++ ws2) = sg ++ s) as Hst.
    { rewrite (assoc_L (++) sg). apply strip_app; [done|done| | |].
      - intros c. destruct Hsg as [->|[->| ->]]; cbn; [by intros ?%Hh%Hds|by intros [= <-]..].
      - intros c. destruct s as [|c0 s] using rev_ind; [done|]. rewrite (assoc_L (++)), last_snoc. intros [= <-].
        apply Hds, Hl. by rewrite last_snoc.
      - by destruct sg, s. }
    unfold parse_int. rewrite Hst. destruct Hz as [[[->| ->] ->]|[-> ->]].
    + cbn [app]. destruct s as [|c r]; [done|]. specialize (Hh c eq_refl).
      unfold is_digit in Hh. destruct c as [|c]; [done|]. do 6 (destruct c as [c|c|]; try done); by rewrite Hn.
    + change (u "+" ++ s) with (43 :: s). cbv beta iota. by rewrite Hn.
    + change (u "-" ++ s) with (45 :: s). cbv beta iota. by rewrite Hn.
Qed.

Lemma title_true t : str_eqb (title t) (u "True") = true ↔ case_variant t.
Proof.
  rewrite str_eqb_eq. unfold case_variant. split.
  - intros E. destruct t as [|a [|b [|c [|d [|]]]]]; try done. unfold title in E. cbn [title_from] in E.
    injection E as E1 E2 E3 E4.
    assert (a = 84 ∨ a = 116) as Ha.
    { unfold upper, is_lower in E1. destruct (N.leb_spec 97 a), (N.leb_spec a 122); simpl in E1; lia. }
    assert (is_alpha a = true) as Ea by (by destruct Ha as [->| ->]). rewrite Ea in E2.
    assert (b = 82 ∨ b = 114) as Hb.
    { unfold lower, is_upper in E2. destruct (N.leb_spec 65 b), (N.leb_spec b 90); simpl in E2; lia. }
    assert (is_alpha b = true) as Eb by (by destruct Hb as [->| ->]). rewrite Eb in E3.
    assert (c = 85 ∨ c = 117) as Hc.
    { unfold lower, is_upper in E3. destruct (N.leb_spec 65 c), (N.leb_spec c 90); simpl in E3; lia. }
    assert (is_alpha c = true) as Ec by (by destruct Hc as [->| ->]). rewrite Ec in E4.
    assert (d = 69 ∨ d = 101) as Hd.
    { unfold lower, is_upper in E4. destruct (N.leb_spec 65 d), (N.leb_spec d 90); simpl in E4; lia. }
    by exists a, b, c, d.
  - intros (a & b & c & d & -> & [->| ->] & [->| ->] & [->| ->] & [->| ->]); reflexivity.
Qed.

Lemma convert_spec S fuel pf cur t v h : converts pf cur t v → convert S fuel pf cur (Some t) h = (inl v, h).
Proof.
  intros [z0 t' z Ha Hz|r0 t' r Hr|s0 t'|b0 t' Hc|b0 t' Hc]; unfold convert.
  - rewrite Ha. by rewrite (proj2 (parse_int_iff _ _) Hz).
  - by rewrite Hr.
  - done.
  - by rewrite (proj2 (title_true t') Hc).
  - destruct (str_eqb (title t') (u "True")) eqn:E; [|done]. by apply title_true in E.
Qed.
