(** The log of cimread. *)
From Coq Require Import String Lia.
From stdpp Require Import prelude gmap.
From Verif Require Import PyStr PyHeap Schema Assoc AssocSpec Reader ReaderSpec ReaderFacts StatementFacts ReadStepFacts ReaderLog LogSpec.

(** *** Counting *)
Definition hits (t : pystr) (ns : list note) : nat := length (omap (λ n, match n with Tally t' => if str_eqb t t' then Some tt else None | Say _ => None end) ns).
Lemma bump_assoc t m t' : default 0 (assoc t' (bump t m)) = default 0 (assoc t' m) + (if str_eqb t' t then 1 else 0).
Proof.
  induction m as [|[k n] m IH]; cbn [bump assoc].
  - destruct (str_eqb t' t); done.
  - destruct (str_eqb t k) eqn:E; cbn [assoc].
    + apply str_eqb_eq in E as ->. destruct (str_eqb t' k); cbn; lia.
    + destruct (str_eqb t' k) eqn:E'; [|exact IH]. apply str_eqb_eq in E' as ->.
      destruct (str_eqb k t) eqn:E2; cbn; [apply str_eqb_eq in E2 as ->; by rewrite str_eqb_refl in E|lia].
Qed.
Lemma tallied_assoc ns t : ∀ m, default 0 (assoc t (tallied ns m)) = default 0 (assoc t m) + hits t ns.
Proof.
  unfold tallied, hits. induction ns as [|[x|x] ns IH]; intros m; cbn [fold_left omap list_omap].
  - cbn. lia.
  - apply IH.
  - rewrite IH, bump_assoc. destruct (str_eqb t x); cbn [length]; lia.
Qed.
Lemma bump_pos t m : (∀ k n, (k, n) ∈ m → 0 < n) → ∀ k n, (k, n) ∈ bump t m → 0 < n.
Proof.
  induction m as [|[k0 n0] m IH]; intros Hm k n; cbn [bump].
  - intros [= _ ->]%elem_of_list_singleton. lia.
  - destruct (str_eqb t k0); intros [[= -> ->]|Hin]%elem_of_cons.
    + lia.
    + apply (Hm k). by right.
    + apply (Hm k0). left.
    + apply (IH (λ k n H, Hm k n (elem_of_list_further _ _ _ H)) k n Hin).
Qed.
Lemma bump_keys t m : ∀ k, k ∈ map fst (bump t m) ↔ k = t ∨ k ∈ map fst m.
Proof.
  induction m as [|[k0 n0] m IH]; intros k; cbn [bump].
  - cbn. set_solver.
  - destruct (str_eqb t k0) eqn:E; cbn [map fst]; rewrite !elem_of_cons.
    + apply str_eqb_eq in E as ->. tauto.
    + rewrite IH. tauto.
Qed.
Lemma bump_nodup t m : NoDup (map fst m) → NoDup (map fst (bump t m)).
Proof.
  induction m as [|[k0 n0] m IH]; cbn [bump]; intros Hn; [apply NoDup_singleton|]. apply NoDup_cons in Hn as [H1 H2].
  destruct (str_eqb t k0) eqn:E; cbn [map fst]; apply NoDup_cons; split; [done..| |by apply IH].
  rewrite bump_keys. intros [->|?]; [|done]. by rewrite str_eqb_refl in E.
Qed.
Lemma tallied_inv ns : ∀ m, (∀ k n, (k, n) ∈ m → 0 < n) → NoDup (map fst m) →
  (∀ k n, (k, n) ∈ tallied ns m → 0 < n) ∧ NoDup (map fst (tallied ns m)).
Proof.
  unfold tallied. induction ns as [|[x|x] ns IH]; intros m H1 H2; cbn [fold_left]; [done|by apply IH|].
  apply IH; [by apply bump_pos|by apply bump_nodup].
Qed.
Lemma assoc_nodup {A} k (v : A) l : NoDup (map fst l) → (k, v) ∈ l → assoc k l = Some v.
Proof.
  induction l as [|[k0 v0] l IH]; intros Hn; [by intros ?%elem_of_nil|]. cbn [assoc map fst] in *. apply NoDup_cons in Hn as [H1 H2].
  intros [[= -> ->]|Hin]%elem_of_cons; [by rewrite str_eqb_refl|]. destruct (str_eqb k k0) eqn:E; [|by apply IH].
  apply str_eqb_eq in E as ->. destruct H1. apply elem_of_list_fmap. by exists (k0, v).
Qed.
Lemma hits_pos t ns : 0 < hits t ns ↔ Tally t ∈ ns.
Proof.
  unfold hits. induction ns as [|[x|x] ns IH]; cbn [omap list_omap].
  - cbn. split; [lia|by intros ?%elem_of_nil].
  - rewrite elem_of_cons, IH. split; [tauto|]. intros [?|?]; done.
  - rewrite elem_of_cons. destruct (str_eqb t x) eqn:E; cbn [length].
    + apply str_eqb_eq in E as ->. split; [by left|lia].
    + rewrite IH. split; [tauto|]. intros [[= ->]|?]; [by rewrite str_eqb_refl in E|done].
Qed.
Lemma omap_app {A B} (f : A → option B) l l' : omap f (l ++ l') = omap f l ++ omap f l'.
Proof. induction l as [|x l IH]; [done|]. cbn [app omap list_omap]. destruct (f x); cbn [app]; by rewrite IH. Qed.
Lemma hits_app t a b : hits t (a ++ b) = hits t a + hits t b.
Proof. unfold hits. by rewrite omap_app, app_length. Qed.
Lemma said_app a b : said (a ++ b) = said a ++ said b.
Proof. apply omap_app. Qed.
Lemma said_in m ns : m ∈ said ns ↔ Say m ∈ ns.
Proof.
  induction ns as [|[x|x] ns IH]; cbn [said omap list_omap].
  - split; by intros ?%elem_of_nil.
  - rewrite !elem_of_cons. fold (said ns). rewrite IH. split; (intros [?|?]; [left; congruence|by right]).
  - rewrite elem_of_cons. fold (said ns). rewrite IH. split; [by right|by intros [?|?]].
Qed.

(** *** Numbers of positions *)
Lemma holds_of_unique P n n' : holds_of P n → holds_of P n' → n = n'.
Proof.
  intros (ks & H1 & H2 & <-) (ks' & H1' & H2' & <-). apply Permutation_length, NoDup_Permutation; [done..|].
  intros k. by rewrite H2, H2'.
Qed.
Lemma holds_of_ext P Q n : (∀ k, P k ↔ Q k) → holds_of P n → holds_of Q n.
Proof. intros H (ks & H1 & H2 & H3). exists ks. split_and!; [done| |done]. intros k. by rewrite H2. Qed.
Lemma holds_of_empty P : (∀ k, ¬ P k) → holds_of P 0.
Proof. intros H. exists []. split_and!; [apply NoDup_nil_2| |done]. intros k. split; [by intros ?%elem_of_nil|intros Hk; by destruct (H k)]. Qed.
Lemma holds_of_step (P Q : nat → Prop) (b : bool) n : (P 0 ↔ b = true) → (∀ k, P (Datatypes.S k) ↔ Q k) → holds_of Q n →
  holds_of P ((if b then 1 else 0) + n).
Proof.
  intros H0 HS (ks & H1 & H2 & <-). exists ((if b then [0] else []) ++ map Datatypes.S ks). split_and!.
  - apply NoDup_app. split_and!; [destruct b; [apply NoDup_singleton|apply NoDup_nil_2]| |].
    + intros k Hk Hin. apply elem_of_list_fmap in Hin as (k' & -> & _). destruct b; [|by apply elem_of_nil in Hk]. by apply elem_of_list_singleton in Hk.
    + apply (NoDup_fmap_2 Datatypes.S); done.
  - intros k. rewrite elem_of_app. assert (k ∈ map Datatypes.S ks ↔ ∃ k', k = Datatypes.S k' ∧ Q k') as ->.
    { rewrite elem_of_list_fmap. split; intros (k' & -> & Hk); exists k'; (split; [done|]); by apply H2. }
    destruct k as [|k].
    + rewrite H0. destruct b; rewrite ?elem_of_list_singleton, ?elem_of_nil; split; try tauto; try done; intros [?|(? & ? & _)]; done.
    + rewrite HS. destruct b; rewrite ?elem_of_list_singleton, ?elem_of_nil; (split; [intros [?|(? & [= <-] & ?)]; done|]); intros Hq; right; eauto.
  - rewrite app_length, map_length. by destruct b.
Qed.
Global Instance message_eq_dec : EqDecision message.
Proof. solve_decision. Defined.
Lemma logged_filter m l : logged m l (length (filter (.= m) l)).
Proof.
  unfold logged. induction l as [|x l IH]; [by apply holds_of_empty|]. rewrite filter_cons.
  assert (length (if decide (x = m) then x :: filter (.= m) l else filter (.= m) l) =
    (if bool_decide (x = m) then 1 else 0) + length (filter (.= m) l)) as ->.
  { case_decide as E; [by rewrite bool_decide_eq_true_2|by rewrite bool_decide_eq_false_2]. }
  apply (holds_of_step _ (λ k, l !! k = Some m)); [|done|done]. cbn. rewrite bool_decide_eq_true. split; congruence.
Qed.

Section facts.
Context (base rdf : pystr) (S : schema) (pm : list (name * name)) (fuel : nat) (pf : pystr → option pystr).
Notation pass1 := (pass1 S pm fuel base rdf).
Notation pass2 := (pass2 S fuel pf base rdf).
Notation pass2_step := (pass2_step S fuel pf base rdf).
Notation run2 := (run2 base rdf S fuel pf).
Notation Reaches := (Reaches base rdf S pm fuel pf).
Notation reads := (reads base rdf S pm fuel pf).
Notation reads_log := (reads_log base rdf S pm fuel pf).
Notation pass1_notes := (pass1_notes S pm fuel base rdf).
Notation pass2_notes := (pass2_notes S fuel pf base rdf).
Notation pass2_note := (pass2_note S base rdf).

(** *** The first pass *)
Lemma pass1_notes_cleared evs : foreign_root base evs → ∀ c d h, pass1_notes evs c d h = pass1_notes evs true d h.
Proof.
  induction evs as [|ev evs IH]; intros Hf c d h; [done|].
  assert (foreign_root base evs) as Hf' by (intros e He; apply Hf; destruct He; [left|right]; by right).
  assert (pass1_step S pm fuel base rdf c ev d h = pass1_step S pm fuel base rdf true ev d h ∧ pass1_note pm base rdf c ev = pass1_note pm base rdf true ev) as [E E2].
  { destruct ev as [e|e|]; [done| |done]. unfold pass1_step, pass1_note. destruct (in_base base e) eqn:Eb; [|done].
    destruct (e_root e) eqn:Er; [|done]. rewrite (Hf e) in Eb; [done|right; left|done]. }
  destruct ev as [e|e|p v]; cbn [ReaderLog.pass1_notes]; [by rewrite E, E2..|by apply IH].
Qed.
Lemma unlocated_cons ev evs : unlocated base rdf pm (ev :: evs) = unlocated base rdf pm [ev] ++ unlocated base rdf pm evs.
Proof. apply (omap_app _ [ev]). Qed.
Lemma pass1_note_spec c ev : foreign_root base [ev] →
  pass1_note pm base rdf c ev = map (λ ti, Say (MNoModule (fst ti) (snd ti))) (unlocated base rdf pm [ev]).
Proof.
  intros Hf. destruct ev as [e|e|p v]; [done| |done]. unfold pass1_note, unlocated. cbn [omap list_omap].
  destruct (in_base base e) eqn:Eb; [|done].
  assert (e_root e = false) as ->. { destruct (e_root e) eqn:Er; [|done]. rewrite (Hf e) in Eb; [done|right; left|done]. }
  cbn [andb]. destruct (uuid_of rdf (e_attrs e)); [|done]. cbn [mbind option_bind]. by destruct (assoc (local base e) pm).
Qed.
Lemma pass1_notes_spec evs err : foreign_root base evs → ∀ c d h, ∃ r,
  unlocated base rdf pm evs = no_module (said (pass1_notes evs c d h)) ++ r ∧
  said (pass1_notes evs c d h) = map (λ ti, MNoModule (fst ti) (snd ti)) (no_module (said (pass1_notes evs c d h))) ∧
  (∀ t, Tally t ∉ pass1_notes evs c d h) ∧
  (∀ d' h', pass1 err evs c d h = (None, d', h') → r = []).
Proof.
  induction evs as [|ev evs IH]; intros Hf c d h; [exists []; split_and!; try done; intros; apply not_elem_of_nil|].
  assert (foreign_root base evs) as Hf' by (intros e He; apply Hf; destruct He; [left|right]; by right).
  assert (foreign_root base [ev]) as Hfe by (intros e He; apply Hf; destruct He as [He|He]; [left|right]; apply elem_of_list_singleton in He as ->; left).
  rewrite unlocated_cons.
  assert (∀ l, said (map (λ ti : pystr * pystr, Say (MNoModule (fst ti) (snd ti))) l) = map (λ ti, MNoModule (fst ti) (snd ti)) l ∧
     no_module (map (λ ti, MNoModule (fst ti) (snd ti)) l) = l ∧ ∀ t, Tally t ∉ map (λ ti : pystr * pystr, Say (MNoModule (fst ti) (snd ti))) l) as Hl.
  { clear. induction l as [|[t i] l (IH1 & IH2 & IH3)]; [split_and!; try done; intros; apply not_elem_of_nil|]. cbn [map fst snd]. split_and!.
    - cbn. by f_equal.
    - cbn. by f_equal.
    - intros x [?|?]%elem_of_cons; [done|by eapply IH3]. }
  assert (∀ m, (∃ r, unlocated base rdf pm evs = no_module (said m) ++ r ∧ said m = map (λ ti, MNoModule (fst ti) (snd ti)) (no_module (said m)) ∧
      (∀ t, Tally t ∉ m) ∧ (∀ d' h', pass1 err (ev :: evs) c d h = (None, d', h') → r = [])) →
    ∃ r, unlocated base rdf pm [ev] ++ unlocated base rdf pm evs = no_module (said (pass1_note pm base rdf c ev ++ m)) ++ r ∧
      said (pass1_note pm base rdf c ev ++ m) = map (λ ti, MNoModule (fst ti) (snd ti)) (no_module (said (pass1_note pm base rdf c ev ++ m))) ∧
      (∀ t, Tally t ∉ pass1_note pm base rdf c ev ++ m) ∧ (∀ d' h', pass1 err (ev :: evs) c d h = (None, d', h') → r = [])) as Hstep.
  { intros m (r & E1 & E2 & E3 & E4). exists r. rewrite pass1_note_spec by done.
    destruct (Hl (unlocated base rdf pm [ev])) as (L1 & L2 & L3). rewrite said_app, L1. unfold no_module. rewrite omap_app. fold (no_module (said m)).
    change (omap _ (map _ (unlocated base rdf pm [ev]))) with (no_module (map (λ ti, MNoModule (fst ti) (snd ti)) (unlocated base rdf pm [ev]))).
    rewrite L2. split_and!; try done.
    - by rewrite <- app_assoc, <- E1.
    - by rewrite map_app, <- E2.
    - intros t [?|?]%elem_of_app; [by eapply L3|by eapply E3]. }
  destruct ev as [e|e|p v]; cbn [ReaderLog.pass1_notes].
  - apply Hstep. cbn [Reader.pass1]. unfold pass1_step. cbn [ret]. by apply IH.
  - apply Hstep. cbn [Reader.pass1]. destruct (pass1_step S pm fuel base rdf c (EEnd e) d h) as [[d1|x] h1]; [by apply IH|].
    exists (unlocated base rdf pm evs). split_and!; try done. intros; apply not_elem_of_nil.
  - cbn [Reader.pass1]. by apply IH.
Qed.
Lemma pass1_notes_drop e a pre rest d h c : is_property base rdf e a → foreign_root base (pre ++ [EStart e; EEnd e] ++ rest) →
  pass1_notes (pre ++ [EStart e; EEnd e] ++ rest) c d h = pass1_notes (pre ++ rest) c d h.
Proof.
  intros Hp. revert c d h. induction pre as [|ev pre IH]; intros c d h Hf.
  - cbn [app ReaderLog.pass1_notes]. unfold pass1_step at 1. cbn [ret]. unfold pass1_step, pass1_note. pose proof Hp as (Hb & _). rewrite Hb.
    assert (e_root e = false) as Hr. { destruct (e_root e) eqn:E; [|done]. rewrite (Hf e) in Hb; [done|left; left|done]. }
    rewrite Hr. cbn [andb]. rewrite (is_property_uuid _ _ _ _ Hp). cbn [ret app].
    symmetry. apply pass1_notes_cleared. intros e' He'; apply Hf; destruct He'; [left|right]; by do 2 right.
  - assert (foreign_root base (pre ++ [EStart e; EEnd e] ++ rest)) as Hf' by (intros e' He; apply Hf; destruct He; [left|right]; by right).
    cbn [app ReaderLog.pass1_notes]. destruct ev as [e'|e'|p v]; [| |by apply IH]; f_equal.
    + destruct (pass1_step _ _ _ _ _ _ _ _ _) as [[]]; [by apply IH|done].
    + destruct (pass1_step _ _ _ _ _ _ _ _ _) as [[]]; [by apply IH|done].
Qed.

(** *** The second pass *)
Lemma notes_app d pre rest : ∀ cur h cur' h', run2 d pre cur h = (inl cur', h') →
  pass2_notes d (pre ++ rest) cur h = pass2_notes d pre cur h ++ pass2_notes d rest cur' h'.
Proof.
  induction pre as [|ev pre IH]; intros cur h cur' h'; cbn [ReaderSpec.run2 app]; [by intros [= -> ->]|].
  unfold bind. cbn [ReaderLog.pass2_notes]. destruct (pass2_step d cur ev h) as [[c|x] h1]; [|done]. intros H. rewrite (IH _ _ _ _ H). by rewrite app_assoc.
Qed.
Lemma notes_in d evs n : ∀ cur h, n ∈ pass2_notes d evs cur h ↔
  ∃ pre ev rest cur' h', evs = pre ++ ev :: rest ∧ run2 d pre cur h = (inl cur', h') ∧ n ∈ pass2_note d cur' ev h'.
Proof.
  induction evs as [|ev evs IH]; intros cur h; cbn [ReaderLog.pass2_notes].
  - split; [by intros ?%elem_of_nil|]. intros (pre & ev & rest & ? & ? & E & _). by destruct pre.
  - rewrite elem_of_app. split.
    + intros [Hn|Hn]; [by exists [], ev, evs, cur, h|].
      destruct (pass2_step d cur ev h) as [[c|x] h1] eqn:E; [|by apply elem_of_nil in Hn].
      apply IH in Hn as (pre & ev' & rest & cur' & h' & -> & Hr & Hn). exists (ev :: pre), ev', rest, cur', h'. split; [done|].
      split; [|done]. cbn [ReaderSpec.run2]. unfold bind. by rewrite E.
    + intros (pre & ev' & rest & cur' & h' & E & Hr & Hn). destruct pre as [|ev0 pre]; cbn [app] in E; injection E as -> ->.
      * cbn in Hr. injection Hr as -> ->. by left.
      * right. cbn [ReaderSpec.run2] in Hr. unfold bind in Hr. destruct (pass2_step d cur ev0 h) as [[c|x] h1]; [|done].
        apply IH. eauto 10.
Qed.
Lemma find_missing h o a : find_attr S o a h = Missing ↔ ¬ has_attr S h o a.
Proof.
  unfold find_attr, has_attr. destruct (fst (getattr S (VRef o) a h)) as [v|x].
  - split; [done|]. intros []. eauto.
  - destruct (special_name a) eqn:Es; [split; [done|]; intros []; right; left; by apply special_reserved|]. apply not_special in Es.
    destruct (cls_of h o) as [ck|]; [|split; [intros _|done]; intros [[? ?]|[?|(? & ? & _)]]; done].
    destruct (accessor_name S ck a) eqn:Ea.
    + split; [done|]. intros []. right. right. exists ck. split; [done|]. by apply accessor_method.
    + split; [|done]. intros _ [[? ?]|[?|(? & [= <-] & Hm%accessor_method)]]; congruence.
Qed.
(** What one event of the second pass is noted for. *)
Lemma class_name_ok h o n ck c : cls_of h o = Some ck → find_cls S ck = Some c → class_name S h o = c_name c ∧ (class_named S h o n ↔ n = class_name S h o).
Proof.
  intros H1 H2. unfold class_name, class_named. rewrite H1. cbn [mbind option_bind]. rewrite H2. cbn. split; [done|].
  split; [intros (ck' & c' & E1 & E2 & ->); congruence|]. intros ->. eauto.
Qed.
Lemma note_object d cur ev h t i : Say (MNoObject t i) ∈ pass2_note d cur ev h ↔
  cur = None ∧ ∃ e, ev = EStart e ∧ in_base base e = true ∧ uuid_of rdf (e_attrs e) = Some i ∧ assoc i d = None ∧ t = local base e.
Proof.
  unfold ReaderLog.pass2_note. destruct cur as [v|].
  - split; [|by intros [? _]]. destruct ev as [e|e|p w]; try by intros ?%elem_of_nil. destruct (in_base base e); [|by intros ?%elem_of_nil].
    destruct (rdf_attr rdf "ID" (e_attrs e)), (rdf_attr rdf "about" (e_attrs e)); try by intros ?%elem_of_nil.
    destruct v; try by intros ?%elem_of_nil. unfold property_note. destruct (find_attr S o _ h); 
      try (by intros [=]%elem_of_list_singleton); destruct (rdf_attr rdf "resource" (e_attrs e)) as [[|c id]|]; try (by intros ?%elem_of_nil);
      destruct (c =? 35)%N; try (by intros ?%elem_of_nil); destruct (assoc id d); (by intros ?%elem_of_nil) || (by intros [=]%elem_of_list_singleton).
  - destruct ev as [e|e|p w]; [|split; [by intros ?%elem_of_nil|by intros (_ & e' & ? & _)]..].
    destruct (in_base base e) eqn:Eb; [|split; [by intros ?%elem_of_nil|]; intros (_ & e' & [= <-] & ? & _); congruence].
    destruct (uuid_of rdf (e_attrs e)) as [id|] eqn:Eu; [|split; [by intros ?%elem_of_nil|]; intros (_ & e' & [= <-] & _ & ? & _); congruence].
    destruct (assoc id d) eqn:Ea.
    + split; [by intros ?%elem_of_nil|]. intros (_ & e' & [= <-] & _ & ? & ? & _). congruence.
    + rewrite elem_of_list_singleton. split; [intros [= -> ->]; eauto 10|]. intros (_ & e' & [= <-] & _ & ? & _ & ->). congruence.
Qed.
Lemma note_target d cur ev h n i : Say (MNoTarget n i) ∈ pass2_note d cur ev h ↔
  ∃ e o a, cur = Some (VRef o) ∧ ev = EEnd e ∧ reference_elem base rdf e a i ∧ has_attr S h o a ∧ assoc i d = None ∧ n = class_name S h o.
Proof.
  split.
  - unfold ReaderLog.pass2_note. destruct cur as [v|]; destruct ev as [e|e|p w]; try by intros ?%elem_of_nil.
    + destruct (in_base base e) eqn:Eb; [|by intros ?%elem_of_nil].
      destruct (rdf_attr rdf "ID" (e_attrs e)) eqn:E1, (rdf_attr rdf "about" (e_attrs e)) eqn:E2; try by intros ?%elem_of_nil.
      destruct v as [| | | | |o|]; try by intros ?%elem_of_nil. unfold property_note.
      assert ((find_attr S o (after_last_dot (local base e)) h ≠ Missing → has_attr S h o (after_last_dot (local base e))) ∧
        (find_attr S o (after_last_dot (local base e)) h = Missing ∨ find_attr S o (after_last_dot (local base e)) h ≠ Missing)) as [Hm Hd].
      { split; [|destruct (find_attr _ _ _ _); auto]. intros Hn. destruct (fst (getattr S (VRef o) (after_last_dot (local base e)) h)) eqn:Eg; [left; eauto|].
        unfold find_attr in Hn. rewrite Eg in Hn. destruct (special_name _) eqn:Es; [right; left; by apply special_reserved|].
        destruct (cls_of h o) as [ck|] eqn:Ec; [|done]. right. right. exists ck. split; [done|]. apply accessor_method. by destruct (accessor_name _ _ _). }
      intros Hin. destruct Hd as [Hd|Hd]; [rewrite Hd in Hin; by apply elem_of_list_singleton in Hin|].
      assert (Say (MNoTarget n i) ∈ match rdf_attr rdf "resource" (e_attrs e) with
        | Some (c :: id) => if (c =? 35)%N then match assoc id d with None => [Say (MNoTarget (class_name S h o) id)] | Some _ => [] end else []
        | _ => [] end) as Hin' by (by destruct (find_attr _ _ _ _)). clear Hin.
      destruct (rdf_attr rdf "resource" (e_attrs e)) as [[|c id]|] eqn:Er; try by apply elem_of_nil in Hin'.
      destruct (N.eqb_spec c 35) as [->|]; [|by apply elem_of_nil in Hin'].
      destruct (assoc id d) eqn:Ea; [by apply elem_of_nil in Hin'|]. apply elem_of_list_singleton in Hin' as [= -> ->].
      exists e, o, (after_last_dot (local base e)). split_and!; try done. by apply Hm.
    + destruct (in_base base e); [|by intros ?%elem_of_nil]. destruct (uuid_of rdf (e_attrs e)); [|by intros ?%elem_of_nil].
      destruct (assoc p d); [by intros ?%elem_of_nil|by intros [=]%elem_of_list_singleton].
  - intros (e & o & a & -> & -> & ((Hb & H1 & H2 & <-) & Hr) & Ha & Hn & ->). unfold ReaderLog.pass2_note. rewrite Hb, H1, H2.
    unfold property_note. assert (find_attr S o (after_last_dot (local base e)) h ≠ Missing) as Hf by (by rewrite find_missing; intros []).
    unfold resource in Hr. rewrite Hr. cbn [app u]. rewrite N.eqb_refl, Hn. destruct (find_attr _ _ _ _); try done; left.
Qed.
Lemma note_tally d cur ev h t : Tally t ∈ pass2_note d cur ev h ↔
  ∃ e o a, cur = Some (VRef o) ∧ ev = EEnd e ∧ is_property base rdf e a ∧ ¬ has_attr S h o a ∧ t = missing_text (class_name S h o) a.
Proof.
  split.
  - unfold ReaderLog.pass2_note. destruct cur as [v|]; destruct ev as [e|e|p w]; try by intros ?%elem_of_nil.
    + destruct (in_base base e) eqn:Eb; [|by intros ?%elem_of_nil].
      destruct (rdf_attr rdf "ID" (e_attrs e)) eqn:E1, (rdf_attr rdf "about" (e_attrs e)) eqn:E2; try by intros ?%elem_of_nil.
      destruct v as [| | | | |o|]; try by intros ?%elem_of_nil. unfold property_note. intros Hin.
      destruct (find_attr S o (after_last_dot (local base e)) h) eqn:Ef.
      4:{ apply elem_of_list_singleton in Hin as [= ->]. exists e, o, (after_last_dot (local base e)). split_and!; try done. by apply find_missing. }
      all: destruct (rdf_attr rdf "resource" (e_attrs e)) as [[|c id]|]; try (by apply elem_of_nil in Hin);
        destruct (c =? 35)%N; try (by apply elem_of_nil in Hin); destruct (assoc id d); (by apply elem_of_nil in Hin) || (by apply elem_of_list_singleton in Hin).
    + destruct (in_base base e); [|by intros ?%elem_of_nil]. destruct (uuid_of rdf (e_attrs e)); [|by intros ?%elem_of_nil].
      destruct (assoc p d); [by intros ?%elem_of_nil|by intros [=]%elem_of_list_singleton].
  - intros (e & o & a & -> & -> & (Hb & H1 & H2 & <-) & Ha & ->). unfold ReaderLog.pass2_note. rewrite Hb, H1, H2.
    unfold property_note. apply find_missing in Ha. rewrite Ha. left.
Qed.
(** Nothing else is noted in the second pass. *)
Lemma note_kind d cur ev h m : Say m ∈ pass2_note d cur ev h → ∃ a b, m = MNoObject a b ∨ m = MNoTarget a b.
Proof.
  unfold ReaderLog.pass2_note. destruct cur as [v|]; destruct ev as [e|e|p w]; try by intros ?%elem_of_nil.
  - destruct (in_base base e); [|by intros ?%elem_of_nil].
    destruct (rdf_attr rdf "ID" (e_attrs e)), (rdf_attr rdf "about" (e_attrs e)); try by intros ?%elem_of_nil.
    destruct v; try by intros ?%elem_of_nil. unfold property_note. destruct (find_attr S o _ h);
      try (by intros [=]%elem_of_list_singleton); destruct (rdf_attr rdf "resource" (e_attrs e)) as [[|c id]|]; try (by intros ?%elem_of_nil);
      destruct (c =? 35)%N; try (by intros ?%elem_of_nil); destruct (assoc id d); (by intros ?%elem_of_nil) || (intros [= ->]%elem_of_list_singleton; eauto).
  - destruct (in_base base e); [|by intros ?%elem_of_nil]. destruct (uuid_of rdf (e_attrs e)); [|by intros ?%elem_of_nil].
    destruct (assoc p d); [by intros ?%elem_of_nil|]. intros [= ->]%elem_of_list_singleton. eauto.
Qed.
Lemma notes_kind d evs cur h m : Say m ∈ pass2_notes d evs cur h → ∃ a b, m = MNoObject a b ∨ m = MNoTarget a b.
Proof. intros (? & ? & ? & ? & ? & _ & _ & H)%notes_in. by eapply note_kind. Qed.
Lemma note_one d cur ev h : length (pass2_note d cur ev h) ≤ 1.
Proof.
  unfold ReaderLog.pass2_note. destruct cur as [v|]; destruct ev as [e|e|p w]; cbn [length]; try lia.
  - destruct (in_base base e); cbn [length]; [|lia].
    destruct (rdf_attr rdf "ID" (e_attrs e)), (rdf_attr rdf "about" (e_attrs e)); cbn [length]; try lia.
    destruct v; cbn [length]; try lia. unfold property_note. destruct (find_attr S o _ h); cbn [length]; try lia;
      destruct (rdf_attr rdf "resource" (e_attrs e)) as [[|c id]|]; cbn [length]; try lia;
      destruct (c =? 35)%N; cbn [length]; try lia; destruct (assoc id d); cbn [length]; lia.
  - destruct (in_base base e); cbn [length]; [|lia]. destruct (uuid_of rdf (e_attrs e)); cbn [length]; [|lia].
    destruct (assoc p d); cbn [length]; lia.
Qed.
Lemma notes_positions (f : note → bool) d evs : ∀ cur h,
  holds_of (λ k, ∃ pre ev rest cur' h', evs = pre ++ ev :: rest ∧ length pre = k ∧ run2 d pre cur h = (inl cur', h') ∧
      ∃ n, n ∈ pass2_note d cur' ev h' ∧ f n = true)
    (length (filter (λ n, f n = true) (pass2_notes d evs cur h))).
Proof.
  induction evs as [|ev evs IH]; intros cur h.
  { apply holds_of_empty. intros k (pre & ev & rest & ? & ? & E & _). by destruct pre. }
  cbn [ReaderLog.pass2_notes]. rewrite filter_app, app_length.
  assert (length (filter (λ n, f n = true) (pass2_note d cur ev h)) = if existsb f (pass2_note d cur ev h) then 1 else 0) as ->.
  { pose proof (note_one d cur ev h) as H1. destruct (pass2_note d cur ev h) as [|n [|]]; cbn in H1; [done| |lia].
    rewrite filter_cons. cbn [existsb]. destruct (decide (f n = true)) as [E|E].
    - by rewrite E.
    - apply not_true_is_false in E. by rewrite E. }
  eapply (holds_of_step _ (λ k, ∃ cur1 h1, pass2_step d cur ev h = (inl cur1, h1) ∧
    ∃ pre ev0 rest cur' h', evs = pre ++ ev0 :: rest ∧ length pre = k ∧ run2 d pre cur1 h1 = (inl cur', h') ∧
      ∃ n, n ∈ pass2_note d cur' ev0 h' ∧ f n = true)).
  - rewrite existsb_exists. split.
    + intros (pre & ev' & rest & cur' & h' & E & Hl & Hr & n & Hn & Hf). destruct pre; [|done]. cbn in E, Hr. injection E as -> ->. injection Hr as -> ->.
      exists n. split; [by apply elem_of_list_In|done].
    + intros (n & Hn%elem_of_list_In & Hf). exists [], ev, evs, cur, h. split_and!; try done. eauto.
  - intros k. split.
    + intros (pre & ev' & rest & cur' & h' & E & Hl & Hr & Hn). destruct pre as [|ev0 pre]; [done|]. cbn [app] in E. injection E as <- ->.
      cbn [ReaderSpec.run2] in Hr. unfold bind in Hr. destruct (pass2_step d cur ev h) as [[c|x] h1] eqn:E1; [|done].
      exists c, h1. split; [done|]. injection Hl as Hl. eauto 12.
    + intros (c & h1 & E1 & pre & ev' & rest & cur' & h' & -> & Hl & Hr & Hn). exists (ev :: pre), ev', rest, cur', h'. cbn [app length].
      split_and!; [done|by f_equal| |done]. cbn [ReaderSpec.run2]. unfold bind. by rewrite E1.
  - destruct (pass2_step d cur ev h) as [[c|x] h1] eqn:E1.
    + eapply holds_of_ext; [|apply IH]. intros k. split; [intros H; by exists c, h1|]. intros (? & ? & [= <- <-] & H). exact H.
    + apply holds_of_empty. by intros k (? & ? & ? & _).
Qed.
Lemma label_ok h o n : class_label S h o n ↔ n = class_name S h o.
Proof.
  unfold class_label. destruct (cls_of h o) as [ck|] eqn:Ec; [destruct (find_cls S ck) as [c|] eqn:Ef|].
  - rewrite (proj2 (class_name_ok h o n ck c Ec Ef)). split; [|by left]. intros [?|[_ H]]; [done|]. destruct (H (c_name c)). by exists ck, c.
  - unfold class_name, class_named. rewrite Ec. cbn [mbind option_bind]. rewrite Ef. cbn. split.
    + intros [(? & ? & [= <-] & ? & _)|[? _]]; [congruence|done].
    + intros ->. right. split; [done|]. intros n' (? & ? & [= <-] & ? & _). congruence.
  - unfold class_name, class_named. rewrite Ec. cbn. split; [intros [(? & ? & ? & _)|[? _]]; done|]. intros ->. right. split; [done|]. by intros n' (? & ? & ? & _).
Qed.
Lemma read_log_unfold err root evs d h : reads_log err root evs d h =
  match pass1 err evs false d h with
  | (None, d', h') =>
      said (pass1_notes evs false d h) ++ said (pass2_notes d' evs None h') ++
      match pass2 d' err evs None h' with
      | (None, _) => map (λ tn, MCount (fst tn) (snd tn)) (tallied (pass2_notes d' evs None h') []) ++ [MCreated (length d'); MEnd]
      | (Some _, _) => []
      end
  | _ => said (pass1_notes evs false d h)
  end.
Proof. done. Qed.
End facts.
