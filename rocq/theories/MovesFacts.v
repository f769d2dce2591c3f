(** Facts about sequences of assignments. *)
From Coq Require Import String.
From stdpp Require Import prelude gmap.
From Verif Require Import PyStr PyHeap Schema AssocSpec History HistorySpec Assoc TableSpec HeapFacts AssocFacts HistoryFacts PropAssoc MovesSpec.

Lemma joins_ok K x p t q : joins K x (Priv p) t q = true ↔ ends_one_many K x p t q.
Proof.
  unfold joins, ends_one_many, resolves. split.
  - destruct (K x p) as [k|] eqn:E1; [|done]. destruct k as [q'| | | | | |]; try done. destruct (K t q) as [k|] eqn:E2; [|done].
    destruct k as [|p'| | | | |]; try done. rewrite andb_true_iff, bool_decide_eq_true. intros [-> H]. split; [done|]. exists p'. split; [done|].
    destruct (K x p') as [k|] eqn:E3; [destruct k|]; apply bool_decide_eq_true in H; try (left; split; [done|by intros]). right. subst. eauto.
  - intros (H1 & p' & H2 & H3). rewrite H1, H2. apply andb_true_iff. split; [by apply bool_decide_eq_true|].
    destruct H3 as [[-> H3]|[c ->]]; [|by apply bool_decide_eq_true].
    destruct (K x p) as [k|] eqn:E3; [destruct k|]; by apply bool_decide_eq_true.
Qed.
Lemma joins_unique K x p p2 t q : ends_one_many K x p t q → ends_one_many K x p2 t q → p = p2.
Proof.
  intros (_ & p' & H1 & H2) (_ & p'' & H3 & H4). assert (p'' = p') as -> by congruence.
  destruct H2 as [[-> H2]|[c H2]], H4 as [[-> H4]|[c4 H4]]; try done; try congruence; by destruct (H2 _ _ H4) || by destruct (H4 _ _ H2).
Qed.
Lemma leaves_ok K l t q y : leaves K l t q y = true ↔ ∃ x p v, y = VRef x ∧ (x, Priv p, v) ∈ l ∧ ends_one_many K x p t q.
Proof.
  unfold leaves. rewrite existsb_exists. split.
  - intros (((x & k) & v) & Hin & [Hy Hj]%andb_true_iff). apply bool_decide_eq_true in Hy. cbn in *. apply elem_of_list_In in Hin.
    destruct k as [a|p]; [done|]. exists x, p, v. split; [done|]. split; [done|]. by apply joins_ok.
  - intros (x & p & v & -> & Hin & Hj%joins_ok). exists (x, Priv p, v). split; [by apply elem_of_list_In|]. apply andb_true_iff. split; [by apply bool_decide_eq_true|done].
Qed.
Lemma arrivals_ok K l t q y : y ∈ arrivals K l t q ↔ ∃ x p, y = VRef x ∧ (x, Priv p, VRef t) ∈ l ∧ ends_one_many K x p t q.
Proof.
  unfold arrivals. rewrite elem_of_list_omap. split.
  - intros (((x & k) & v) & Hin & Hm). cbn in Hm. destruct (joins K x k t q) eqn:Hj; [|done]. case_bool_decide as Hv; [|done].
    destruct k as [a|p]; [done|]. injection Hm as <-. subst v. exists x, p. split; [done|]. split; [done|]. by apply joins_ok.
  - intros (x & p & -> & Hin & Hj%joins_ok). exists (x, Priv p, VRef t). split; [done|]. cbn [fst snd]. rewrite Hj. by rewrite bool_decide_eq_true_2.
Qed.
Lemma arrivals_app K l l' t q : arrivals K (l ++ l') t q = arrivals K l t q ++ arrivals K l' t q.
Proof. apply omap_app. Qed.
Lemma leaves_app K l l' t q y : leaves K (l ++ l') t q y = leaves K l t q y || leaves K l' t q y.
Proof. apply existsb_app. Qed.
Lemma filter_all {A} (P : A → Prop) `{∀ x, Decision (P x)} l : (∀ x, x ∈ (l : list A) → P x) → filter P l = l.
Proof. induction l as [|x l IH]; intros HP; [done|]. rewrite filter_cons_True by (apply HP; left). f_equal. apply IH. intros. apply HP. by right. Qed.
Lemma filter_same {A} (P Q : A → Prop) `{∀ x, Decision (P x)} `{∀ x, Decision (Q x)} l : (∀ x, x ∈ (l : list A) → P x ↔ Q x) → filter P l = filter Q l.
Proof.
  induction l as [|x l IH]; intros HP; [done|].
  destruct (decide (P x)) as [Hp|Hp].
  - rewrite filter_cons_True by done. rewrite filter_cons_True by (apply HP; [left|done]). f_equal. apply IH. intros. apply HP. by right.
  - rewrite filter_cons_False by done. rewrite filter_cons_False by (intros Hq; apply Hp, HP; [left|done]). apply IH. intros. apply HP. by right.
Qed.
Lemma remove_dups_id {A} `{EqDecision A} (l : list A) : NoDup l → remove_dups l = l.
Proof. induction 1 as [|x l Hx Hn IH]; [done|]. cbn [remove_dups]. destruct (decide_rel _ x l); [done|]. by rewrite IH. Qed.

(** Composition. *)
Lemma Moved_nil K V : Moved K V V [].
Proof.
  split; [by intros ??? ?%elem_of_nil| |done].
  intros t q p' ys Hk Hv. rewrite Hv. unfold arrivals. cbn. rewrite app_nil_r. by rewrite filter_all.
Qed.
Lemma Moved_app K V V1 V2 l1 l2 : NoDup (map fst (l1 ++ l2)) → Moved K V V1 l1 → Moved K V1 V2 l2 → 
  (∀ x k v, (x, k, v) ∈ l1 ++ l2 → ∀ q p', k = Priv q → K x q ≠ Some (PManyOne p')) →
  Moved K V V2 (l1 ++ l2).
Proof.
  intros Hn H1 H2 Hc.
  assert (∀ x k v v', (x, k, v) ∈ l1 → (x, k, v') ∉ l2) as Hd.
  { rewrite map_app in Hn. apply NoDup_app in Hn as (_ & Hn & _). intros x k v v' Ha Hb. apply (Hn (x, k)).
    - apply elem_of_list_fmap. by exists (x, k, v).
    - apply elem_of_list_fmap. by exists (x, k, v'). }
  split.
  - intros x k v [Hin|Hin]%elem_of_app; [|by apply (md_value _ _ _ _ H2)].
    rewrite (md_frame _ _ _ _ H2); [by apply (md_value _ _ _ _ H1)|intros v'; by eapply Hd|].
    intros q p' ys -> Hk. by destruct (Hc x (Priv q) v (proj2 (elem_of_app _ _ _) (or_introl Hin)) q p' eq_refl).
  - intros t q p' ys Hk Hv. rewrite (md_coll _ _ _ _ H2 t q p' _ Hk (md_coll _ _ _ _ H1 t q p' ys Hk Hv)). do 2 f_equal.
    rewrite arrivals_app, filter_app, app_assoc. f_equal. f_equal.
    + rewrite list_filter_filter. apply filter_same. intros y _. rewrite leaves_app, orb_false_iff. naive_solver.
    + apply filter_all. intros y (x & p & -> & Hin & He)%arrivals_ok. apply not_true_iff_false. intros (x2 & p2 & v2 & [= <-] & Hin2 & He2)%leaves_ok.
      assert (p2 = p) as -> by by eapply joins_unique. by destruct (Hd x (Priv p) _ v2 Hin).
  - intros o k Hno Hnl. rewrite (md_frame _ _ _ _ H2).
    + apply (md_frame _ _ _ _ H1); [|done]. intros v Hin. apply (Hno v), elem_of_app. by left.
    + intros v Hin. apply (Hno v), elem_of_app. by right.
    + intros q p' ys -> Hk Hv. rewrite (md_frame _ _ _ _ H1) in Hv; [by eapply Hnl| |done]. intros v Hin. apply (Hno v), elem_of_app. by left.
Qed.

(** Each statement. *)
Lemma kind_no_coll S h c l x k v q p' : moves S h c l → (x, k, v) ∈ l → k = Priv q → pkind S h x q ≠ Some (PManyOne p').
Proof.
  intros Hm Hin ->. destruct Hm as [x' a v'|x' p q' v' Hk|x' a p c q' v' _ Hk|t q' p0 p ys xs Hk _ Hx|t q' p0 p xs Hk Hx].
  - apply elem_of_list_singleton in Hin. done.
  - apply elem_of_list_singleton in Hin. congruence.
  - apply elem_of_list_singleton in Hin. congruence.
  - apply elem_of_list_fmap in Hin as (y & [= -> -> ->] & Hy). destruct (Hx y Hy) as ((? & _) & _). congruence.
  - apply elem_of_list_fmap in Hin as (y & [= -> -> ->] & Hy). destruct (Hx y Hy) as (? & _). congruence.
Qed.
Lemma has_slot_view h o p : has_slot h o p ↔ is_Some (slot h o (Priv p)).
Proof. done. Qed.
Lemma single_moved S h h' x p q w : Consistent S h → pkind S h x p = Some (POneMany q) → fits_one_many S h x p q w →
  SetSingle (view h) (view h') x p q w → Moved (pkind S h) (view h) (view h') [(x, Priv p, w)].
Proof.
  intros [_ HL] Hk Hf HS. split.
  - intros x' k v [= -> -> ->]%elem_of_list_singleton. apply (ss_self _ _ _ _ _ _ HS).
  - intros t q' p' ys Hkt Hv. destruct (lk_coll _ _ HL _ _ _ _ Hkt Hv) as (ys0 & [= <-] & _ & Hys).
    assert (∀ y, leaves (pkind S h) [(x, Priv p, w)] t q' y = true ↔ y = VRef x ∧ ends_one_many (pkind S h) x p t q') as Hl.
    { intros y. rewrite leaves_ok. split; [intros (x' & p2 & v & -> & [= -> -> ->]%elem_of_list_singleton & ?); done|].
      intros [-> ?]. exists x, p, w. split; [done|]. split; [by left|done]. }
    destruct (joins (pkind S h) x (Priv p) t q') eqn:Hj.
    + assert (q' = q) as -> by (apply joins_ok in Hj as [? _]; congruence).
      unfold arrivals. cbn [omap list_omap fst snd]. rewrite Hj. cbn [andb]. apply joins_ok in Hj.
      rewrite (filter_same _ (λ y, y ≠ VRef x)).
      2:{ intros y _. rewrite <- not_true_iff_false, Hl. naive_solver. }
      case_bool_decide as Hw.
      * by rewrite (ss_new _ _ _ _ _ _ HS t ys Hw Hv).
      * rewrite app_nil_r. destruct (decide (view h x (Priv p) = Some (OV (VRef t)))) as [Ho|Ho].
        -- by rewrite (ss_old _ _ _ _ _ _ HS t ys Ho Hw Hv).
        -- rewrite (ss_frame _ _ _ _ _ _ HS); [rewrite Hv; do 2 f_equal; symmetry; apply filter_all| |].
           ++ intros y Hy ->. destruct (Hys _ Hy) as (x' & p2 & [= <-] & He & Hv2). assert (p2 = p) as -> by by eapply joins_unique. done.
           ++ intros [= -> ->]. congruence.
           ++ intros _. done.
    + assert (¬ ends_one_many (pkind S h) x p t q') as Hne by (rewrite <- joins_ok; by rewrite Hj).
      rewrite (filter_all _ ys).
      2:{ intros y _. rewrite <- not_true_iff_false, Hl. naive_solver. }
      unfold arrivals. cbn [omap list_omap fst snd]. rewrite Hj. cbn [andb]. rewrite app_nil_r.
      rewrite (ss_frame _ _ _ _ _ _ HS); [done| |].
      * intros [= -> ->]. congruence.
      * intros [= ->]. split.
        -- intros ->. destruct Hf as [|(t' & ys' & [= <-] & He & _)]; done.
        -- intros Hv2. destruct (lk_single _ _ HL _ _ _ _ Hk Hv2) as [|(t' & ys' & [= <-] & He & _)]; done.
  - intros o k Hno Hnl. apply (ss_frame _ _ _ _ _ _ HS).
    + intros [= -> ->]. apply (Hno w). by left.
    + intros ->. split.
      * intros ->. destruct Hf as [|(t' & ys' & [= <-] & (_ & p' & He & _) & Hv)]; [done|]. by eapply Hnl.
      * intros Hv2. destruct (lk_single _ _ HL _ _ _ _ Hk Hv2) as [|(t' & ys' & [= <-] & (_ & p' & He & _) & Hv & _)]; [done|]. by eapply Hnl.
Qed.
Lemma all_moved S h h' xs p q w : Consistent S h → NoDup xs → (∀ x, x ∈ xs → pkind S h x p = Some (POneMany q) ∧ fits_one_many S h x p q w) →
  AssignAll (view h) (view h') xs p q w → Moved (pkind S h) (view h) (view h') (map (λ x, (x, Priv p, w)) xs).
Proof.
  intros [_ HL] Hn Hf HS.
  assert (∀ x k v, (x, k, v) ∈ map (λ x, (x, Priv p, w)) xs ↔ x ∈ xs ∧ k = Priv p ∧ v = w) as Hin.
  { intros x k v. rewrite elem_of_list_fmap. split; [by intros (y & [= -> -> ->] & ?)|]. intros (? & -> & ->). by exists x. }
  assert (∀ x t ys, x ∈ xs → view h t (Priv q) = Some (OL ys) → w = VRef t → ends_one_many (pkind S h) x p t q) as Hwt.
  { intros x t ys Hx Hv ->. destruct (Hf x Hx) as [_ [|(t' & ys' & [= <-] & He & _)]]; done. }
  split.
  - intros x k v (Hx & -> & ->)%Hin. by apply (aa_member _ _ _ _ _ _ HS).
  - intros t q' p' ys Hkt Hv. destruct (lk_coll _ _ HL _ _ _ _ Hkt Hv) as (ys0 & [= <-] & _ & Hys).
    assert (∀ y, leaves (pkind S h) (map (λ x, (x, Priv p, w)) xs) t q' y = true ↔ ∃ x, y = VRef x ∧ x ∈ xs ∧ ends_one_many (pkind S h) x p t q') as Hl.
    { intros y. rewrite leaves_ok. split.
      - intros (x' & p2 & v & -> & (? & [= ->] & ->)%Hin & ?). eauto.
      - intros (x & -> & Hx & He). exists x, p, w. split; [done|]. split; [by apply Hin|done]. }
    destruct (decide (q' = q)) as [->|Hq].
    + destruct (decide (w = VRef t)) as [->|Hw].
      * rewrite (aa_new _ _ _ _ _ _ HS t ys eq_refl Hv). do 2 f_equal. f_equal.
        -- apply filter_same. intros y _. rewrite <- not_true_iff_false, Hl, elem_of_list_fmap. naive_solver.
        -- rewrite remove_dups_id by (apply NoDup_fmap_2; [by intros ?? [= ->]|done]).
           assert (∀ x, x ∈ xs → ends_one_many (pkind S h) x p t q) as He by (intros; by eapply Hwt). clear -He.
           induction xs as [|x xs IH]; [done|]. unfold arrivals in *. cbn [map omap list_omap fst snd].
           rewrite (proj2 (joins_ok _ _ _ _ _) (He x (elem_of_list_here _ _))). rewrite bool_decide_eq_true_2 by done. cbn [andb]. f_equal.
           apply IH. intros. apply He. by right.
      * rewrite (aa_old _ _ _ _ _ _ HS t ys Hw Hv). do 2 f_equal.
        assert (arrivals (pkind S h) (map (λ x, (x, Priv p, w)) xs) t q = []) as ->.
        { apply elem_of_nil_inv. intros y (x & p2 & -> & (_ & _ & Hw2)%Hin & _)%arrivals_ok. done. }
        rewrite app_nil_r. apply filter_same. intros y Hy. rewrite <- not_true_iff_false, Hl, elem_of_list_fmap.
        destruct (Hys y Hy) as (x & p2 & -> & He & Hv2). apply not_iff_compat. split.
        -- intros (x2 & [= <-] & [Hx3 Hx2]%elem_of_list_filter). exists x. split; [done|]. split; [done|].
           destruct (lk_single _ _ HL _ _ _ _ (proj1 (Hf x Hx2)) Hx3) as [|(t' & ys' & [= <-] & He2 & _)]; done.
        -- intros (x2 & [= <-] & Hx & He2). exists x. split; [done|]. apply elem_of_list_filter. split; [|done].
           assert (p2 = p) as <- by by eapply joins_unique. done.
    + rewrite (aa_frame _ _ _ _ _ _ HS).
      * rewrite Hv. do 2 f_equal. rewrite filter_all.
        -- assert (arrivals (pkind S h) (map (λ x, (x, Priv p, w)) xs) t q' = []) as ->; [|by rewrite app_nil_r].
           apply elem_of_nil_inv. intros y (x & p2 & -> & (Hx & [= ->] & _)%Hin & [He _])%arrivals_ok. destruct (Hf x Hx). congruence.
        -- intros y _. rewrite <- not_true_iff_false, Hl. intros (x & _ & Hx & [He _]). destruct (Hf x Hx). congruence.
      * intros [= ->] Hx. destruct (Hf t Hx). congruence.
      * by intros [= ->].
      * by intros [= ->].
  - intros o k Hno Hnl. apply (aa_frame _ _ _ _ _ _ HS).
    + intros -> Hx. apply (Hno w). by apply Hin.
    + intros -> Hxs ->. destruct xs as [|x xs]; [done|]. destruct (Hf x (elem_of_list_here _ _)) as [_ [|(t' & ys' & [= <-] & (_ & p' & He & _) & Hv)]]; [done|]. by eapply Hnl.
    + intros -> x Hx Hv2. destruct (lk_single _ _ HL _ _ _ _ (proj1 (Hf x Hx)) Hv2) as [|(t' & ys' & [= <-] & (_ & p' & He & _) & Hv & _)]; [done|]. by eapply Hnl.
Qed.

Section run.
Context (T : schema).
Notation K := (pkind T).
Lemma moves_step f h c l : Consistent T h → moves T h c l → NoDup (map fst l) →
  ∃ h', run_op T (S (S f)) c h = (inl tt, h') ∧ same_classes h h' ∧ Moved (K h) (view h) (view h') l ∧ Consistent T h'.
Proof.
  intros HC Hm Hn. destruct Hm as [x a v Hk Hc Hp Hl|x p q v Hk Hs Hf|x a p c q v Ha Hk Hs Hf|t q p' p ys xs Hk Hv Hx|t q p' p xs Hk Hx]; cbn [run_op].
  - apply not_list_vlist in Hl. exists (hset x (Pub a) v h). split; [rewrite set_plain by done; by rewrite Hp|]. split; [apply same_classes_hset|]. split.
    + split.
      * intros x' k v' [= -> -> ->]%elem_of_list_singleton. rewrite view_hset by done. unfold upd. by rewrite decide_True.
      * intros t q p' ys Hkt Hv. rewrite view_hset by done. rewrite upd_ne by congruence. rewrite Hv. do 2 f_equal.
        unfold arrivals. cbn. rewrite app_nil_r. symmetry. apply filter_all. intros y _. unfold leaves. cbn. by rewrite andb_false_r.
      * intros o k Hno _. rewrite view_hset by done. rewrite upd_ne; [done|]. intros [= -> ->]. apply (Hno v). by left.
    + pose proof HC as [Hwf HL]. split; [by apply wf_hset|].
      eapply (Links_ext (K h) _ (view (hset x (Pub a) v h))); [intros; by rewrite pkind_hset|done|].
      eapply Links_other; [|exact HL]. intros o r k _ _. rewrite view_hset by done. by rewrite upd_ne by congruence.
  - destruct (C01_set_single T (S f) h x p q v HC Hk Hs Hf) as (h' & E & Hsc & HS & HC'). exists h'. split; [done|]. split; [done|]. split; [by eapply single_moved|done].
  - destruct (setattr_resolves T f h x a p q v) as [f' ->]; [right; eauto|done|].
    destruct (C01_set_single T f' h x p q v HC Hk Hs Hf) as (h' & E & Hsc & HS & HC'). exists h'. split; [done|]. split; [done|]. split; [by eapply single_moved|done].
  - destruct (C03_add T f h t q p' p xs ys HC Hk Hv Hx) as (h' & E & Hsc & HS & HC'). exists h'. split; [done|]. split; [done|]. split; [|done].
    eapply all_moved; [done| | |exact HS].
    + rewrite map_map in Hn. by apply NoDup_fmap_1 in Hn.
    + intros x Hin. destruct (Hx x Hin) as (He & _). split; [apply He|]. right. eauto.
  - destruct (C04_remove T f h t q p' p xs HC Hk Hx) as (h' & E & Hsc & HS & HC'). exists h'. split; [done|]. split; [done|]. split; [|done].
    eapply all_moved; [done| | |exact HS].
    + rewrite map_map in Hn. by apply NoDup_fmap_1 in Hn.
    + intros x Hin. destruct (Hx x Hin) as (He & _). split; [done|]. by left.
Qed.
Lemma Moved_some Kd V V' l o k : Moved Kd V V' l → is_Some (V o k) → is_Some (V' o k).
Proof.
  intros HM Hs. destruct (decide ((o, k) ∈ map fst l)) as [((x & v) & [= <-] & Hin)%elem_of_list_fmap|Hno].
  { cbn in *. rewrite (md_value _ _ _ _ HM _ _ _ Hin). eauto. }
  assert (∀ v, (o, k, v) ∉ l) as Hno' by (intros v Hin; apply Hno, elem_of_list_fmap; by exists (o, k, v)).
  destruct k as [a|q]; [rewrite (md_frame _ _ _ _ HM); done|].
  destruct (V o (Priv q)) as [[v|ys]|] eqn:Hv; [|destruct (Kd o q) as [kd|] eqn:Hk; [destruct kd as [|p'| | | | |]|]|by destruct Hs].
  2: { rewrite (md_frame _ _ _ _ HM); [by rewrite Hv|done|]. intros q2 p2 ys2 [= <-]. congruence. }
  2: { rewrite (md_coll _ _ _ _ HM _ _ _ _ Hk Hv). eauto. }
  all: rewrite (md_frame _ _ _ _ HM); [by rewrite Hv|done|]; intros q2 p2 ys2 [= <-]; congruence.
Qed.
Lemma moves_kept h h' l c m : Wf h → same_classes h h' → Moved (K h) (view h) (view h') l → moves T h c m → moves T h' c m.
Proof.
  intros Hwf Hsc HM Hm.
  assert (∀ o r, K h' o r = K h o r) as HK by (intros; by apply pkind_same).
  assert (∀ o p, has_slot h o p → has_slot h' o p) as Hs.
  { intros o p Ho. destruct (slotful_view h o p Hwf Ho) as [w Hw]. destruct (Moved_some _ _ _ _ o (Priv p) HM) as [w' Hw']; [by rewrite Hw|].
    unfold has_slot. unfold view in Hw'. destruct (slot h' o (Priv p)); [done|done]. }
  assert (∀ x p t q, ends_one_many (K h) x p t q → ends_one_many (K h') x p t q) as He.
  { intros x p t q (H1 & p' & H2 & H3). split; [by rewrite HK|]. exists p'. split; [by rewrite HK|].
    destruct H3 as [[-> H3]|[c' H3]]; [left|right]; [split; [done|]; intros; by rewrite HK|exists c'; by rewrite HK]. }
  assert (∀ x p p2, resolves (K h) x p p2 → resolves (K h') x p p2) as Hr.
  { intros x p p2 [[-> H3]|[c' H3]]; [left|right]; [split; [done|]; intros; by rewrite HK|exists c'; by rewrite HK]. }
  assert (∀ t q p' ys, K h t q = Some (PManyOne p') → view h t (Priv q) = Some (OL ys) → ∃ ys', view h' t (Priv q) = Some (OL ys')) as Hl.
  { intros t q p' ys Hk Hv. rewrite (md_coll _ _ _ _ HM _ _ _ _ Hk Hv). eauto. }
  assert (∀ x p q v, fits_one_many T h x p q v → fits_one_many T h' x p q v) as Hf.
  { intros x p q v [->|(t & ys & -> & Hxe & Hv)]; [by left|right]. pose proof Hxe as (_ & p' & Hk & _). destruct (Hl t q p' ys Hk Hv) as [ys' ?]. eauto 10. }
  destruct Hm as [x a v Hk Hc Hp Hnl|x p q v Hk Hss Hff|x a p c q v Ha Hk Hss Hff|t q p' p ys xs Hk Hv Hx|t q p' p xs Hk Hx].
  - constructor; [by rewrite HK|by rewrite Hsc|done|done].
  - econstructor; [by rewrite HK|auto|by apply Hf].
  - econstructor; [by rewrite HK|by rewrite HK|auto|by apply Hf].
  - destruct (Hl _ _ _ _ Hk Hv) as [ys' ?]. econstructor; [by rewrite HK|done|]. intros x Hin. destruct (Hx x Hin) as (? & ? & ?). auto.
  - econstructor; [by rewrite HK|]. intros x Hin. destruct (Hx x Hin) as (? & ? & ?). rewrite HK. auto.
Qed.
Lemma moves_run f cs ls : ∀ h, Consistent T h → Forall2 (moves T h) cs ls → NoDup (map fst (concat ls)) →
  ∃ h', run_ops T (S (S f)) cs h = (inl tt, h') ∧ same_classes h h' ∧ Moved (K h) (view h) (view h') (concat ls) ∧ Consistent T h'.
Proof.
  revert ls. induction cs as [|c cs IH]; intros ls h HC HF Hn.
  { apply Forall2_nil_inv_l in HF as ->. exists h. split; [done|]. split; [done|]. split; [apply Moved_nil|done]. }
  apply Forall2_cons_inv_l in HF as (l & ls' & Hc & HF & ->). cbn [concat] in *.
  destruct (moves_step f h c l HC Hc) as (h1 & E1 & Hs1 & HM1 & HC1).
  { rewrite map_app in Hn. by apply NoDup_app in Hn as (? & _). }
  assert (∀ o r, K h1 o r = K h o r) as HK by (intros; by apply pkind_same).
  destruct (IH ls' h1 HC1) as (h2 & E2 & Hs2 & HM2 & HC2).
  { eapply Forall2_impl; [exact HF|]. intros c' m. apply (moves_kept h h1 l c' m (proj1 HC) Hs1 HM1). }
  { rewrite map_app in Hn. by apply NoDup_app in Hn as (_ & _ & ?). }
  exists h2. split; [unfold run_ops; cbn [for_each]; erewrite bind_inl by exact E1; exact E2|].
  split; [intros o; by rewrite Hs2, Hs1|]. split; [|done].
  assert (∀ c m x k v, c ∈ cs → moves T h c m → (x, k, v) ∈ m → ∀ q p', k = Priv q → K h x q ≠ Some (PManyOne p')) as Hno by (intros; by eapply kind_no_coll).
  eapply Moved_app; [done|exact HM1| |].
  - assert (K h1 = K h → Moved (K h) (view h1) (view h2) (concat ls')) as HX by (intros EQ; rewrite <- EQ; exact HM2).
    assert (∀ x k t q, joins (K h1) x k t q = joins (K h) x k t q) as Hj by (intros x [a|p] t q; cbn; [done|]; rewrite !HK; destruct (K h x p) as [[]|]; try done; destruct (K h t q) as [[]|]; try done; by rewrite HK).
    assert (∀ t q y, leaves (K h1) (concat ls') t q y = leaves (K h) (concat ls') t q y) as Hlv.
    { intros. unfold leaves. clear -Hj. induction (concat ls') as [|m l0 IHl]; [done|]. cbn [existsb]. by rewrite Hj, IHl. }
    assert (∀ t q, arrivals (K h1) (concat ls') t q = arrivals (K h) (concat ls') t q) as Har.
    { intros. unfold arrivals. clear -Hj. induction (concat ls') as [|m l0 IHl]; [done|]. cbn [omap list_omap]. by rewrite Hj, IHl. }
    split; [apply (md_value _ _ _ _ HM2)| |].
    + intros t q p' ys Hk Hv. rewrite (md_coll _ _ _ _ HM2 t q p' ys); [|by rewrite HK|done]. do 2 f_equal. rewrite Har. f_equal. apply filter_same. intros. by rewrite Hlv.
    + intros o k H1 H2. apply (md_frame _ _ _ _ HM2); [done|]. intros q p' ys ->. rewrite HK. by apply H2.
  - intros x k v [Hin|Hin]%elem_of_app; [intros; by eapply kind_no_coll|].
    apply elem_of_list_In, in_concat in Hin as (m & Hm & Hin). apply elem_of_list_In in Hm, Hin. apply elem_of_list_lookup in Hm as [i Hm].
    destruct (Forall2_lookup_r _ _ _ _ _ HF Hm) as (c' & Hc' & Hmv). intros. by eapply kind_no_coll.
Qed.
End run.
