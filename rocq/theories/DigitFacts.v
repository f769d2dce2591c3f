(** Decimal notation: [str] of an int and its inverses. *)
From Coq Require Import String ZArith Lia.
From stdpp Require Import prelude.
From Verif Require Import PyStr XmlSpec.

Local Open Scope N_scope.
Lemma dec_val_digits s acc : dec_val acc s = digits_val acc s.
Proof. revert acc. induction s as [|c s IH]; intros acc; [done|]. cbn [dec_val digits_val]. unfold is_digit. by destruct (_ && _). Qed.
Lemma digits_val_app a b acc : digits_val acc (a ++ b) = x ← digits_val acc a; digits_val x b.
Proof. revert acc. induction a as [|c a IH]; intros acc; [done|]. simpl. destruct (is_digit c); [apply IH|done]. Qed.
Lemma digit_ok d : d < 10 → is_digit (48 + d) = true ∧ 48 + d - 48 = d.
Proof. intros Hd. unfold is_digit. split; [|lia]. apply andb_true_iff. rewrite !N.leb_le. lia. Qed.

Lemma digits_of_spec f : ∀ n acc, n < 2 ^ N.of_nat (S f) →
  ∃ c ds, digits_of (S f) n acc = (c :: ds) ++ acc ∧ Forall (λ c, is_digit c = true) (c :: ds) ∧
    digits_val 0 (c :: ds) = Some n.
Proof.
  induction f as [|f IH]; intros n acc Hn.
  - cbn [digits_of]. change (2 ^ N.of_nat 1) with 2 in Hn.
    assert (n <? 10 = true) as -> by (apply N.ltb_lt; lia).
    rewrite N.mod_small by lia. destruct (digit_ok n) as [Hd1 Hd2]; [lia|].
    exists (48 + n), []. split_and!; [done|by repeat constructor|].
    cbn [digits_val]. rewrite Hd1. f_equal. lia.
  - cbn [digits_of]. cbn [digits_of] in IH.
    assert (n mod 10 < 10) as Hm by (apply N.mod_lt; lia). destruct (digit_ok _ Hm) as [Hd1 Hd2].
    destruct (n <? 10) eqn:E.
    + exists (48 + n mod 10), []. split_and!; [done|by repeat constructor|].
      cbn [digits_val]. rewrite Hd1. apply N.ltb_lt in E. rewrite N.mod_small by done. f_equal. lia.
    + apply N.ltb_ge in E. destruct (IH (n / 10) ((48 + n mod 10) :: acc)) as (c & ds & E2 & Hf & Hv).
      { apply N.div_lt_upper_bound; [done|].
        replace (N.of_nat (S (S f))) with (N.succ (N.of_nat (S f))) in Hn by lia.
        rewrite N.pow_succ_r' in Hn. lia. }
      exists c, (ds ++ [48 + n mod 10]). split_and!.
      * rewrite E2. simpl. by rewrite <- app_assoc.
      * rewrite app_comm_cons. apply Forall_app. split; [done|]. by repeat constructor.
      * rewrite app_comm_cons, digits_val_app, Hv. cbn [mbind option_bind digits_val]. rewrite Hd1. f_equal.
        rewrite Hd2. pose proof (N.div_mod n 10). lia.
Qed.
Lemma show_nat_spec n : ∃ c ds, show_nat n = c :: ds ∧ Forall (λ c, is_digit c = true) (c :: ds) ∧
  digits_val 0 (c :: ds) = Some n.
Proof.
  unfold show_nat. destruct (digits_of_spec (N.to_nat (N.log2 n)) n []) as (c & ds & E & ? & ?).
  - destruct (decide (n = 0)) as [->|Hn]; [done|].
    rewrite Nat2N.inj_succ, N2Nat.id. apply N.log2_spec. lia.
  - exists c, ds. by rewrite E, app_nil_r.
Qed.

(** [int(str(z)) == z]. *)
Lemma lstrip_nonspace c s : is_space c = false → lstrip (c :: s) = c :: s.
Proof. intros E. cbn [lstrip]. by rewrite E. Qed.
Lemma digit_nonspace c : is_digit c = true → is_space c = false.
Proof.
  unfold is_digit, is_space. rewrite andb_true_iff, !N.leb_le. intros [? ?].
  destruct (N.eqb_spec c 32); [lia|]. destruct (N.leb_spec 9 c), (N.leb_spec c 13), (N.leb_spec 28 c), (N.leb_spec c 31); try lia; done.
Qed.
Lemma strip_id s : (∀ c, head s = Some c → is_space c = false) → (∀ c, last s = Some c → is_space c = false) → strip s = s.
Proof.
  intros Hh Hl. unfold strip. destruct s as [|c s]; [done|].
  rewrite lstrip_nonspace by (by apply Hh).
  destruct (reverse (c :: s)) as [|d t] eqn:E.
  { apply (f_equal reverse) in E. by rewrite reverse_involutive in E. }
  rewrite lstrip_nonspace.
  - by rewrite <- E, reverse_involutive.
  - apply Hl. rewrite <- (reverse_involutive (c :: s)), E, reverse_cons. apply last_snoc.
Qed.
Lemma int_digits_val s : ∀ acc n, digits_val acc s = Some n → int_digits acc true s = Some n.
Proof.
  induction s as [|c s IH]; intros acc n; cbn [digits_val int_digits]; [done|].
  destruct (is_digit c); [apply IH|done].
Qed.
Lemma parse_nat_digits c ds n : is_digit c = true → digits_val 0 (c :: ds) = Some n → parse_nat (c :: ds) = Some n.
Proof.
  intros Hc. unfold parse_nat. cbn [digits_val int_digits]. rewrite Hc. apply int_digits_val.
Qed.
Lemma parse_int_show z : parse_int (show_int z) = Some z.
Proof.
  assert (∀ p, ∃ c ds, show_nat (Npos p) = c :: ds ∧ is_digit c = true ∧ Forall (λ c, is_digit c = true) (c :: ds) ∧
     digits_val 0 (c :: ds) = Some (Npos p)) as Hs.
  { intros p. destruct (show_nat_spec (Npos p)) as (c & ds & E & Hf & Hv). exists c, ds. split_and!; [done| |done..].
    by apply Forall_cons in Hf as [? _]. }
  assert (∀ c ds, Forall (λ c, is_digit c = true) (c :: ds) → ∀ x, last (c :: ds) = Some x → is_space x = false) as Hlast.
  { intros c ds Hf x Hx. apply digit_nonspace. rewrite Forall_forall in Hf. apply Hf.
    apply last_Some in Hx as [l' ->]. apply elem_of_app. right. left. }
  destruct z as [|p|p]; [reflexivity| |].
  - cbn [show_int]. destruct (Hs p) as (c & ds & E & Hc & Hf & Hv). rewrite E. unfold parse_int.
    rewrite strip_id; cycle 1.
    { intros x [= <-]. by apply digit_nonspace. }
    { by apply Hlast. }
    assert (c ≠ 45 ∧ c ≠ 43) as [H1 H2].
    { unfold is_digit in Hc. rewrite andb_true_iff, !N.leb_le in Hc. lia. }
    replace (match c :: ds with 45 :: r => n ← parse_nat r; Some (- Z.of_N n)%Z
       | 43 :: r => n ← parse_nat r; Some (Z.of_N n) | r => n ← parse_nat r; Some (Z.of_N n) end)
      with (n ← parse_nat (c :: ds); Some (Z.of_N n)).
    + by rewrite (parse_nat_digits _ _ _ Hc Hv).
    + destruct c as [|q]; [done|]. do 7 (destruct q; try done).
  - cbn [show_int]. destruct (Hs p) as (c & ds & E & Hc & Hf & Hv). rewrite E. unfold parse_int.
    rewrite strip_id; cycle 1.
    { by intros x [= <-]. }
    { intros x Hx. apply (Hlast _ _ Hf). done. }
    by rewrite (parse_nat_digits _ _ _ Hc Hv).
Qed.
