(** C106: reading a document imports the packages of its objects one by one; when this
    makes no difference to the result, and what happens otherwise. *)
From Coq Require Import String PArith.
From stdpp Require Import prelude gmap.
From Verif Require Import PyStr PyHeap Schema Assoc Names TabCIM14 TabCIM15 Tables Reader VocabSpec VocabFacts ReaderFacts
  Imports TabImports ImportSpec ImportTabs ImportReader PropImport PropReader PropReread.
From Verif Require ReadDemo.

Lemma group_14 : ((cim14, cim14_map), cim14_packages) ∈ zip tables packages.
Proof. left. Qed.
Lemma group_15 : ((cim15, cim15_map), cim15_packages) ∈ zip tables packages.
Proof. right. left. Qed.
Lemma packages_full : forallb (λ pk, match pk with [] => false | _ => true end) packages = true.
Proof. vm_compute. reflexivity. Qed.

Local Opaque table modules tables packages.
Local Notation pairs := [(dynamics, wires); (entsoe_dynamics, entsoe_wires)].
Lemma too_early_iff s p : too_early s p ↔ ∃ d w, (d, w) ∈ pairs ∧ inside d p ∧ ¬ in_sys s w.
Proof.
  unfold too_early. split.
  - intros [[A B]|[A B]].
    + exists dynamics, wires. split; [left|split; [exact A|exact B]].
    + exists entsoe_dynamics, entsoe_wires. split; [right; left|split; [exact A|exact B]].
  - intros (d & w & X & A & B). apply elem_of_cons in X as [X|X]; [|apply elem_of_list_singleton in X]; injection X as -> ->.
    + left. split; [exact A|exact B].
    + right. split; [exact A|exact B].
Qed.
Lemma too_early_dec s p : too_early s p ∨ ¬ too_early s p.
Proof.
  unfold too_early. destruct (inside_dec dynamics p) as [A|A], (in_sys_dec s wires) as [B|B], (inside_dec entsoe_dynamics p) as [C|C],
    (in_sys_dec s entsoe_wires) as [D|D]; tauto.
Qed.
Lemma timely_nil s : timely s [].
Proof. intros [|x ps1] p ps2 E; discriminate E. Qed.
Lemma timely_cons s s' p ps : (∀ k, in_sys s' k ↔ in_sys s k ∨ needs p k) →
  timely s (p :: ps) ↔ ¬ too_early s p ∧ timely s' ps.
Proof.
  intros H. split.
  - intros T. split.
    + intros (d & w & X & A & B)%too_early_iff. destruct (T [] p ps eq_refl d w X A) as [C|(q & C & _)]; [exact (B C)|destruct (not_elem_of_nil _ C)].
    + intros ps1 q ps2 E d w X A. rewrite (H w). destruct (T (p :: ps1) q ps2) with (d := d) (w := w) as [C|(x & C & D)]; [by rewrite E|exact X|exact A|by left; left|].
      apply elem_of_cons in C as [->|C]; [by left; right|right; by exists x].
  - intros [T1 T2] [|x ps1] q ps2 E d w X A; cbn [app] in E; injection E as -> ->.
    + left. destruct (in_sys_dec s w) as [B|B]; [exact B|]. exfalso. apply T1, too_early_iff. by exists d, w.
    + destruct (T2 ps1 q ps2 eq_refl d w X A) as [B|(y & B & C)].
      * apply H in B as [B|B]; [by left|right]. exists x. split; [left|exact B].
      * right. exists y. split; [by right|exact C].
Qed.
Lemma timely_prefix s ps qs : timely s (ps ++ qs) → timely s ps.
Proof. intros T ps1 p ps2 ->. apply (T ps1 p (ps2 ++ qs)). by rewrite <- app_assoc. Qed.
Lemma timely_sys s s' ps : (∀ k, in_sys s k ↔ in_sys s' k) → timely s ps → timely s' ps.
Proof. intros H T ps1 p ps2 E d w X A. rewrite <- (H w). exact (T ps1 p ps2 E d w X A). Qed.

Lemma class_key_path m n : class_key table m n = class_path m n.
Proof.
  unfold class_key, class_path, dotted. f_equal. unfold ups.
  generalize (m :: match table !! m with Some M => m_up M | None => [] end). intros l.
  induction l as [|x l IH]; [reflexivity|]. destruct l as [|y l]; [reflexivity|]. cbn [dots_of dots]. f_equal. exact IH.
Qed.

Section group.
Context (f fuel : nat) (t : schema) (pm : list (name * name)) (pk : list (name * positive)) (base rdf : pystr).
Context (F : length modules < f) (Z : ((t, pm), pk) ∈ zip tables packages).

Lemma group_keys : map fst pm = map fst pk.
Proof using Z.
  pose proof (forallb_in _ _ groups_true _ Z) as G. unfold group_b in G. cbn beta iota delta [fst snd] in G.
  apply andb_prop in G as [G1 G2]. by apply same_names_ok.
Qed.
Lemma asks_for_iff c e p : asks_for base rdf pk c e p ↔
  in_base base e = true ∧ (∃ id, uuid_of rdf (if e_root e && c then [] else e_attrs e) = Some id) ∧ assoc (local base e) pk = Some p.
Proof.
  assert (U : ∀ l id, e_tag e = base ++ l → (e_root e = true → c = false) ∧ names_object base rdf e l id ↔
    uuid_of rdf (if e_root e && c then [] else e_attrs e) = Some id).
  { intros l id T. rewrite <- (uuid_iff base rdf e l id T). destruct (e_root e), c; cbn [andb]; try tauto; try (split; [tauto|auto]).
    split; [intros [X _]; by specialize (X eq_refl)|done]. }
  unfold asks_for. rewrite in_base_iff. split.
  - intros (R & l & id & N & A). pose proof (proj1 N) as T. split; [by exists l|]. rewrite (local_app base e l T).
    split; [exists id; by apply (U l)|by apply assoc_first].
  - intros ((l & T) & (id & X) & A). rewrite (local_app base e l T) in A. apply (U l id T) in X as [X1 X2].
    split; [exact X1|]. exists l, id. split; [exact X2|by apply assoc_first].
Qed.
Lemma step_other c e d h s : (∀ p, ¬ asks_for base rdf pk c e p) →
  step_imports table t pk f fuel base rdf c (EEnd e) d h s = (inl d, h, s) ∧ pass1_step t pm fuel base rdf c (EEnd e) d h = (inl d, h).
Proof using Z.
  intros N. unfold step_imports, pass1_step. destruct (in_base base e) eqn:B; [|by split].
  destruct (uuid_of rdf _) as [id|] eqn:U; [|by split]. destruct (assoc (local base e) pk) as [p|] eqn:A.
  - destruct (N p). apply asks_for_iff. split; [exact B|]. split; [by exists id|exact A].
  - split; [reflexivity|]. apply assoc_lacks in A. rewrite <- group_keys in A. apply assoc_lacks in A.
    change (assoc (local base e) pm = None) in A. by rewrite A.
Qed.
Lemma step_early c e p d h s : interpreter f s → asks_for base rdf pk c e p → too_early s p →
  ∃ s', step_imports table t pk f fuel base rdf c (EEnd e) d h s = (inr (ImportFailed ImportError), h, s').
Proof using F Z.
  intros I A T. apply asks_for_iff in A as (B & (id & U) & A).
  destruct (C105_class f s t pm pk _ p F I Z A) as (_ & C & _). destruct (C T) as [s' E]. exists s'.
  unfold step_imports. rewrite B, U, A, E. reflexivity.
Qed.
Lemma step_now c e p d h s : interpreter f s → asks_for base rdf pk c e p → ¬ too_early s p →
  ∃ s', interpreter f s' ∧ (∀ k, in_sys s' k ↔ in_sys s k ∨ needs p k) ∧
    step_imports table t pk f fuel base rdf c (EEnd e) d h s =
      match pass1_step t pm fuel base rdf c (EEnd e) d h with
      | (inl d', h') => (inl d', h', s')
      | (inr x, h') => (inr (Raised x), h', s')
      end.
Proof using F Z.
  intros I A T. apply asks_for_iff in A as (B & (id & U) & A).
  destruct (C105_class f s t pm pk _ p F I Z A) as (_ & _ & C). destruct (C T) as (m & s' & E & I' & K).
  exists s'. split; [exact I'|]. split.
  - apply (C105_loads f s p s' I). unfold import_class in E. destruct (import_module table f p s) as [[x|] s1]; [injection E; discriminate|].
    destruct (look s1 p (local base e)); [injection E as -> ->; reflexivity|injection E; discriminate].
  - unfold step_imports, pass1_step. rewrite B, U, A, E, K, class_key_path. unfold bind, ret.
    destruct (construct t fuel _ [] _ h) as [[o|x] h']; reflexivity.
Qed.

(** The first pass. *)
Lemma pass1_reads err c evs ps : asks base rdf pk c evs ps → ∀ s d h, interpreter f s →
  (timely s ps ∧ ∃ s', interpreter f s' ∧ (∀ k, in_sys s k → in_sys s' k) ∧
     pass1_imports table t pk f fuel base rdf err evs c d h s = of_res (pass1 t pm fuel base rdf err evs c d h) s' ∧
     (fst (fst (pass1 t pm fuel base rdf false evs c d h)) = None → ∀ k, in_sys s' k ↔ in_sys s k ∨ ∃ p, p ∈ ps ∧ needs p k)) ∨
  (¬ timely s ps ∧ ∃ evs1 e evs2 ps1 p c' s', evs = evs1 ++ EEnd e :: evs2 ∧ asks base rdf pk c evs1 ps1 ∧ timely s ps1 ∧
     asks_for base rdf pk c' e p ∧ ¬ timely s (ps1 ++ [p]) ∧
     pass1_imports table t pk f fuel base rdf err evs c d h s =
       match pass1 t pm fuel base rdf false evs1 c d h with
       | (None, d1, h1) => (Some (ImportFailed ImportError), d1, h1, s')
       | r => of_res r s'
       end).
Proof using F Z.
  induction 1 as [c|c n v evs ps _ IH|c e evs ps A IH|c e p evs ps A As IH|c e evs ps N As IH]; intros s d h I.
  - left. split; [apply timely_nil|]. exists s. split; [exact I|]. split; [exact (λ _ x, x)|]. split; [by destruct err|]. intros _ k. split; [by left|].
    intros [X|(p & X & _)]; [exact X|destruct (not_elem_of_nil _ X)].
  - destruct (IH s d h I) as [X|(X & evs1 & e & evs2 & ps1 & p & c' & s' & -> & A & T & AF & T' & E)]; [left; exact X|right].
    split; [exact X|]. exists (ENs n v :: evs1), e, evs2, ps1, p, c', s'. split; [reflexivity|]. split; [by constructor|].
    split; [exact T|]. split; [exact AF|]. split; [exact T'|]. exact E.
  - destruct (IH s d h I) as [X|(X & evs1 & e1 & evs2 & ps1 & p & c' & s' & -> & A' & T & AF & T' & E)]; [left; exact X|right].
    split; [exact X|]. exists (EStart e :: evs1), e1, evs2, ps1, p, c', s'. split; [reflexivity|]. split; [by constructor|].
    split; [exact T|]. split; [exact AF|]. split; [exact T'|]. exact E.
  - destruct (too_early_dec s p) as [T|T].
    + right. split.
      { intros Y. apply too_early_iff in T as (dd & w & X & B & C).
        destruct (Y [] p ps eq_refl dd w X B) as [D|(q & D & _)]; [exact (C D)|destruct (not_elem_of_nil _ D)]. }
      destruct (step_early c e p d h s I A T) as [s' E].
      exists [], e, evs, [], p, c, s'. split; [reflexivity|]. split; [constructor|]. split; [apply timely_nil|]. split; [exact A|]. split.
      { intros Y. apply too_early_iff in T as (dd & w & X & B & C).
        destruct (Y [] p [] eq_refl dd w X B) as [D|(q & D & _)]; [exact (C D)|destruct (not_elem_of_nil _ D)]. }
      cbn [pass1_imports pass1]. rewrite E. reflexivity.
    + destruct (step_now c e p d h s I A T) as (s1 & I1 & L & E).
      destruct (pass1_step t pm fuel base rdf c (EEnd e) d h) as [[d1|x] h1] eqn:E1.
      * destruct (IH s1 d1 h1 I1) as [(X & s' & I' & Mo & Q & L')|(X & evs1 & e1 & evs2 & ps1 & p1 & c' & s' & -> & A' & T1 & AF & T' & Q)].
        -- left. split; [by apply (timely_cons s s1 p ps L)|]. exists s'. split; [exact I'|]. split; [intros k B; apply Mo, L; by left|]. cbn [pass1_imports pass1]. rewrite E, E1.
           split; [exact Q|]. intros Y k. rewrite (L' Y k), (L k). split.
           ++ intros [[B|B]|(q & B & C)]; [by left|right; exists p; split; [left|exact B]|right; exists q; split; [by right|exact C]].
           ++ intros [B|(q & B & C)]; [by left; left|]. apply elem_of_cons in B as [->|B]; [by left; right|right; by exists q].
        -- right. split; [intros Y; apply X; by apply (timely_cons s s1 p ps L) in Y as [_ Y]|].
           exists (EEnd e :: evs1), e1, evs2, (p :: ps1), p1, c', s'. split; [reflexivity|]. split; [by apply asks_object|].
           split; [by apply (timely_cons s s1 p ps1 L)|]. split; [exact AF|]. split.
           { intros Y. apply T'. cbn [app] in Y. by apply (timely_cons s s1 p _ L) in Y as [_ Y]. }
           cbn [pass1_imports pass1]. rewrite E, E1. exact Q.
      * cbn [pass1_imports pass1]. destruct (IH s1 d h I1) as [(X & _)|(X & evs1 & e1 & evs2 & ps1 & p1 & c' & s' & -> & A' & T1 & AF & T' & _)].
        -- left. split; [by apply (timely_cons s s1 p ps L)|]. exists s1. split; [exact I1|]. split; [intros k B; apply L; by left|]. rewrite E, E1. split; [reflexivity|]. discriminate.
        -- right. split; [intros Y; apply X; by apply (timely_cons s s1 p ps L) in Y as [_ Y]|].
           exists (EEnd e :: evs1), e1, evs2, (p :: ps1), p1, c', s1. split; [reflexivity|]. split; [by apply asks_object|].
           split; [by apply (timely_cons s s1 p ps1 L)|]. split; [exact AF|]. split.
           { intros Y. apply T'. cbn [app] in Y. by apply (timely_cons s s1 p _ L) in Y as [_ Y]. }
           cbn [app pass1_imports pass1]. rewrite E, E1. reflexivity.
  - destruct (step_other c e d h s N) as [E1 E2].
    destruct (IH s d h I) as [X|(X & evs1 & e1 & evs2 & ps1 & p & c' & s' & -> & A' & T & AF & T' & E)]; [left|right].
    + cbn [pass1_imports pass1]. rewrite E1, E2. exact X.
    + split; [exact X|]. exists (EEnd e :: evs1), e1, evs2, ps1, p, c', s'. split; [reflexivity|]. split; [by apply asks_other|].
      split; [exact T|]. split; [exact AF|]. split; [exact T'|]. cbn [app pass1_imports pass1]. rewrite E1, E2. exact E.
Qed.
(** The packages that a document asks for are determined. *)
Lemma asks_for_dec c e : (∃ p, asks_for base rdf pk c e p) ∨ ∀ p, ¬ asks_for base rdf pk c e p.
Proof.
  destruct (in_base base e) eqn:B; [|right; intros p (X & _)%asks_for_iff; congruence].
  destruct (uuid_of rdf (if e_root e && c then [] else e_attrs e)) as [id|] eqn:U; [|right; intros p (_ & (i & X) & _)%asks_for_iff; congruence].
  destruct (assoc (local base e) pk) as [p|] eqn:A; [left; exists p|right; intros p (_ & _ & X)%asks_for_iff; congruence].
  apply asks_for_iff. split; [exact B|]. split; [by exists id|exact A].
Qed.
Lemma asks_total evs : ∀ c, ∃ ps, asks base rdf pk c evs ps.
Proof.
  induction evs as [|[e|e|n v] evs IH]; intros c.
  - exists []. constructor.
  - destruct (IH true) as [ps A]. exists ps. by constructor.
  - destruct (IH true) as [ps A]. destruct (asks_for_dec c e) as [[p X]|X]; [exists (p :: ps)|exists ps]; by constructor.
  - destruct (IH c) as [ps A]. exists ps. by constructor.
Qed.

Lemma reads_timely pf src d h s : interpreter f s →
  (∀ evs ps, skip_root (s_events src) = Some evs → asks base rdf pk false evs ps → timely s ps) →
  ∃ s', interpreter f s' ∧ (∀ k, in_sys s k → in_sys s' k) ∧
    (∀ d' h', read t pm fuel pf base rdf src d h = (None, d', h') → ∀ evs, skip_root (s_events src) = Some evs →
       ∃ ps, asks base rdf pk false evs ps ∧ ∀ p k, p ∈ ps → needs p k → in_sys s' k) ∧
    read_imports table t pk f fuel base rdf pf src d h s = of_res (read t pm fuel pf base rdf src d h) s'.
Proof using F Z.
  intros I T. unfold read_imports, read.
  destruct (skip_root (s_events src)) as [evs|]; [|exists s; split; [exact I|]; split; [exact (λ _ x, x)|]; split; [discriminate|reflexivity]].
  destruct (asks_total evs false) as [ps A]. specialize (T evs ps eq_refl A).
  destruct (pass1_reads (s_error src) false evs ps A s d h I) as [(_ & s' & I' & Mo & E & L)|[N _]]; [|by destruct (N T)].
  exists s'. split; [exact I'|]. split; [exact Mo|]. rewrite E. split.
  - intros d' h' R evs' Ee. injection Ee as <-. exists ps. split; [exact A|]. intros p k Hp Hk.
    assert (s_error src = false) as Er.
    { destruct (s_error src); [|reflexivity]. pose proof (pass1_raises t pm fuel base rdf evs false d h) as Q.
      destruct (pass1 t pm fuel base rdf true evs false d h) as [[[x|] d1] h1]; [discriminate R|by destruct Q]. }
    rewrite Er in R. apply L; [|right; by exists p].
    destruct (pass1 t pm fuel base rdf false evs false d h) as [[[x|] d1] h1]; [discriminate R|reflexivity].
  - destruct (pass1 t pm fuel base rdf (s_error src) evs false d h) as [[[x|] d1] h1]; [reflexivity|].
    cbn [of_res fmap option_fmap option_map]. destruct (pass2 _ _ _ _ _ _ _ _ _) as [x h2]. reflexivity.
Qed.
Lemma reads_early pf src d h s evs ps : interpreter f s → skip_root (s_events src) = Some evs → asks base rdf pk false evs ps → ¬ timely s ps →
  ∃ evs1 e evs2 ps1 p c' s', evs = evs1 ++ EEnd e :: evs2 ∧ asks base rdf pk false evs1 ps1 ∧ timely s ps1 ∧
     asks_for base rdf pk c' e p ∧ ¬ timely s (ps1 ++ [p]) ∧
     read_imports table t pk f fuel base rdf pf src d h s =
       match pass1 t pm fuel base rdf false evs1 false d h with
       | (None, d1, h1) => (Some (ImportFailed ImportError), d1, h1, s')
       | r => of_res r s'
       end.
Proof using F Z.
  intros I Es A T. destruct (pass1_reads (s_error src) false evs ps A s d h I) as [[Y _]|(_ & evs1 & e & evs2 & ps1 & p & c' & s' & Ev & A' & T1 & AF & T' & E)].
  { by destruct (T Y). }
  exists evs1, e, evs2, ps1, p, c', s'. split; [exact Ev|]. split; [exact A'|]. split; [exact T1|]. split; [exact AF|]. split; [exact T'|].
  unfold read_imports. rewrite Es, E. destruct (pass1 t pm fuel base rdf false evs1 false d h) as [[[x|] d1] h1]; reflexivity.
Qed.
End group.

(** CIM14 and CIM15, which every call without a map imports. *)
Definition roots : list positive := [1; 1089]%positive.
Lemma roots_known : forallb (λ m, match table !! m with Some _ => true | None => false end) roots = true.
Proof. vm_compute. reflexivity. Qed.
Lemma roots_outside : forallb (λ m, not_in dynamics m && not_in entsoe_dynamics m) roots = true.
Proof. vm_compute. reflexivity. Qed.
Definition spares_b (f : nat) (m : positive) : bool :=
  match import_module table f m ∅ with
  | (None, s) => match s !! wires, s !! entsoe_wires with None, None => true | _, _ => false end
  | _ => false
  end.
Lemma roots_spare : forallb (spares_b 2000) roots = true.
Proof. vm_compute. reflexivity. Qed.
Lemma root_spares m d w : m ∈ roots → (d, w) ∈ pairs → ¬ needs m w.
Proof.
  intros A B N. pose proof (forallb_in _ _ roots_spare _ A) as X. unfold spares_b in X.
  destruct (import_module table 2000 m ∅) as [[x|] s] eqn:E; [discriminate|].
  pose proof (proj2 (C105_loads 2000 ∅ m s (int_fresh _) E w) (or_intror N)) as [y Y].
  apply elem_of_cons in B as [B|B]; [|apply elem_of_list_singleton in B]; injection B as -> ->; rewrite Y in X; [discriminate|].
  destruct (s !! wires); discriminate.
Qed.
Lemma root_import f s m : length modules < f → interpreter f s → m ∈ roots →
  ∃ s', import_module table f m s = (None, s') ∧ interpreter f s' ∧ (∀ ps, timely s ps ↔ timely s' ps) ∧ ∀ k, in_sys s k → in_sys s' k.
Proof.
  intros F I A.
  assert (K : is_Some (table !! m)).
  { pose proof (forallb_in _ _ roots_known _ A) as X. cbn beta in X. destruct (table !! m) as [M|]; [by exists M|discriminate]. }
  assert (N : ¬ too_early s m).
  { pose proof (forallb_in _ _ roots_outside _ A) as X. cbn beta in X. apply andb_prop in X as [X1 X2].
    rewrite not_in_ok in X1. rewrite not_in_ok in X2. intros [[Y _]|[Y _]]; apply inside_ok in Y; [exact (X1 Y)|exact (X2 Y)]. }
  destruct (proj2 (C105_import f s m F I K) N) as (s' & E & I' & _ & Mo). exists s'. split; [exact E|]. split; [exact I'|].
  split; [|exact Mo]. pose proof (C105_loads f s m s' I E) as L. intros ps. split.
  - intros T ps1 p ps2 Ep d w X B. rewrite (L w). destruct (T ps1 p ps2 Ep d w X B) as [C|C]; [by left; left|by right].
  - intros T ps1 p ps2 Ep d w X B. destruct (T ps1 p ps2 Ep d w X B) as [C|C]; [|by right]. apply L in C as [C|C]; [by left|].
    by destruct (root_spares m d w A X).
Qed.
Lemma roots_import f s : length modules < f → interpreter f s →
  ∃ s', import_all table f roots s = (None, s') ∧ interpreter f s' ∧ (∀ ps, timely s ps ↔ timely s' ps) ∧ ∀ k, in_sys s k → in_sys s' k.
Proof.
  intros F. assert (H : ∀ l, (∀ x, x ∈ l → x ∈ roots) → ∀ s, interpreter f s →
    ∃ s', import_all table f l s = (None, s') ∧ interpreter f s' ∧ (∀ ps, timely s ps ↔ timely s' ps) ∧ ∀ k, in_sys s k → in_sys s' k); [|intros I; by apply H].
  induction l as [|m l IH]; intros Hl s0 I.
  - exists s0. split; [reflexivity|]. split; [exact I|]. split; [intros ps; split; exact (λ x, x)|exact (λ _ x, x)].
  - destruct (root_import f s0 m F I) as (s1 & E & I1 & T & Mo); [apply Hl; left|]. destruct (IH) with (s := s1) as (s2 & E2 & I2 & T2 & Mo2); [intros; apply Hl; by right|exact I1|].
    exists s2. cbn [import_all]. rewrite E. split; [exact E2|]. split; [exact I2|].
    split; [intros ps; rewrite (T ps); exact (T2 ps)|intros k B; exact (Mo2 k (Mo k B))].
Qed.

(** A call of cimread: without the two arguments, or with the namespace and the map
    of one of the packages. *)
Inductive how := Detect | Give (ns : pystr) (t : schema) (pm : list (name * name)) (pk : list (name * positive)).
Definition known (w : how) : Prop := match w with Detect => True | Give ns t pm pk => ((t, pm), pk) ∈ zip tables packages end.
(** The class table, its maps and the namespace that the call works with, [m] being
    the namespaces of the document. *)
Inductive works_with (m : list (pystr * pystr)) : how → schema → list (name * name) → list (name * positive) → pystr → Prop :=
| ww_14 : detects14 m → works_with m Detect cim14 cim14_map cim14_packages (u "{" ++ cim14_uri ++ u "#}")
| ww_15 : ¬ detects14 m → works_with m Detect cim15 cim15_map cim15_packages (u "{" ++ detected_ns m ++ u "}")
| ww_given ns t pm pk : ns ≠ [] → works_with m (Give ns t pm pk) t pm pk (u "{" ++ ns ++ u "#}").
(** The call without and with the imports it makes. *)
Definition call (fuel : nat) (pf : pystr → option pystr) (w : how) (src : source) (sd : option dict) (h : heap) : res :=
  cimread fuel pf cim14_uri (cim14, cim14_map) (cim15, cim15_map) src
    (match w with Detect => None | Give _ t pm _ => Some (t, pm) end) (match w with Detect => None | Give ns _ _ _ => Some ns end) sd h.
Definition call_importing (f fuel : nat) (pf : pystr → option pystr) (w : how) (src : source) (sd : option dict) (h : heap) (s : session) : ires :=
  cimread_imports table roots f fuel pf cim14_uri (cim14, cim14_packages) (cim15, cim15_packages) src
    (match w with Detect => None | Give _ t _ pk => Some (t, pk) end) (match w with Detect => None | Give ns _ _ _ => Some ns end) sd h s.

Lemma call_read f fuel pf w src sd h s m t pm pk base : length modules < f → interpreter f s → known w → xmlns src = inl m → works_with m w t pm pk base →
  ((t, pm), pk) ∈ zip tables packages ∧
  ∃ s', interpreter f s' ∧ (∀ ps, timely s ps ↔ timely s' ps) ∧ (∀ k, in_sys s k → in_sys s' k) ∧
    call fuel pf w src sd h = read t pm fuel pf base (rdf_ns m) src (default [] sd) h ∧
    call_importing f fuel pf w src sd h s = read_imports table t pk f fuel base (rdf_ns m) pf src (default [] sd) h s'.
Proof.
  intros F I K X W. destruct W as [D|D|ns t pm pk N].
  - split; [exact group_14|]. destruct (roots_import f s F I) as (s' & E & I' & T & Mo). exists s'. split; [exact I'|]. split; [exact T|].
    split; [exact Mo|]. split; [exact (C23_cim14 fuel pf src sd h m X D)|].
    unfold call_importing, cimread_imports. rewrite X. cbv beta iota zeta. cbn [Bool.eqb negb]. rewrite E.
    destruct D as (ns & Hns & Hh). rewrite <- strip_with_hash in Hh. apply (proj1 (hash_inj _ _)) in Hh.
    rewrite cim_detect, Hns. cbv beta iota zeta delta [default from_option id]. rewrite Hh, str_eqb_refl. reflexivity.
  - split; [exact group_15|]. destruct (roots_import f s F I) as (s' & E & I' & T & Mo). exists s'. split; [exact I'|]. split; [exact T|].
    split; [exact Mo|]. split; [exact (C23_cim15 fuel pf src sd h m X D)|].
    unfold call_importing, cimread_imports. rewrite X. cbv beta iota zeta. cbn [Bool.eqb negb]. rewrite E.
    rewrite cim_detect. unfold detected_ns. rewrite <- strip_with_hash.
    destruct (str_eqb (strip_hash (default [] (assoc (u "cim") m))) cim14_uri) eqn:Q.
    + apply str_eqb_eq in Q. destruct D. destruct (assoc (u "cim") m) as [ns|] eqn:Ens.
      * exists ns. split; [exact Ens|]. rewrite <- strip_with_hash. change (strip_hash ns = cim14_uri) in Q. by rewrite Q.
      * exfalso. revert Q. clear. by vm_compute.
    + rewrite <- (assoc_L (++)). reflexivity.
  - split; [exact K|]. exists s. split; [exact I|]. split; [intros ps; split; exact (λ x, x)|]. split; [exact (λ _ x, x)|].
    assert (P1 : pk ≠ []).
    { intros ->. pose proof (forallb_in _ _ packages_full _ (elem_of_zip_r _ _ _ _ K)). discriminate. }
    assert (P2 : pm ≠ []).
    { intros ->. pose proof (group_keys t [] pk K) as G. destruct pk; [exact (P1 eq_refl)|discriminate G]. }
    split; [exact (C23_given fuel pf src sd h m t pm ns _ _ X P2 N)|].
    unfold call_importing, cimread_imports. rewrite X. destruct pk as [|a pk]; [destruct (P1 eq_refl)|]. destruct ns as [|c ns]; [destruct (N eq_refl)|]. reflexivity.
Qed.

(** Documents in which every package for dynamics is asked for in time are read as
    if there were no imports. *)
Theorem C106_timely f fuel pf w src sd h s : length modules < f → interpreter f s → known w →
  (∀ m t pm pk base evs ps, xmlns src = inl m → works_with m w t pm pk base → skip_root (s_events src) = Some evs →
     asks base (rdf_ns m) pk false evs ps → timely s ps) →
  ∃ s', interpreter f s' ∧ (∀ k, in_sys s k → in_sys s' k) ∧
    (∀ d' h' m t pm pk base evs, call fuel pf w src sd h = (None, d', h') → xmlns src = inl m → works_with m w t pm pk base →
       skip_root (s_events src) = Some evs → ∃ ps, asks base (rdf_ns m) pk false evs ps ∧ ∀ p k, p ∈ ps → needs p k → in_sys s' k) ∧
    call_importing f fuel pf w src sd h s = of_res (call fuel pf w src sd h) s'.
Proof.
  intros F I K T. destruct (xmlns src) as [m|x] eqn:X.
  - assert (W : (∃ t pm pk base, works_with m w t pm pk base) ∨ ∃ t pm pk, w = Give [] t pm pk).
    { destruct w as [|ns t pm pk].
      - left. destruct (str_eqb (strip_hash (default [] (assoc (u "cim") m))) cim14_uri) eqn:E.
        + exists cim14, cim14_map, cim14_packages, (u "{" ++ cim14_uri ++ u "#}"). constructor. apply str_eqb_eq in E.
          destruct (assoc (u "cim") m) as [ns|] eqn:Ens.
          * exists ns. split; [exact Ens|]. rewrite <- strip_with_hash. change (strip_hash ns = cim14_uri) in E. by rewrite E.
          * exfalso. revert E. clear. by vm_compute.
        + exists cim15, cim15_map, cim15_packages, (u "{" ++ detected_ns m ++ u "}"). constructor. intros (ns & Ens & Hh).
          rewrite Ens in E. cbv beta iota zeta delta [default from_option id] in E. rewrite <- strip_with_hash in Hh.
          apply (proj1 (hash_inj _ _)) in Hh. rewrite Hh, str_eqb_refl in E. discriminate.
      - destruct ns as [|c ns]; [right; by exists t, pm, pk|left]. exists t, pm, pk, (u "{" ++ (c :: ns) ++ u "#}"). by constructor. }
    destruct W as [(t & pm & pk & base & W)|(t & pm & pk & ->)].
    + destruct (call_read f fuel pf w src sd h s m t pm pk base F I K X W) as (Z & s1 & I1 & Ts & Mo1 & Er & ->).
      destruct (reads_timely f fuel t pm pk base (rdf_ns m) F Z pf src (default [] sd) h s1 I1) as (s' & I' & Mo & L & Q).
      { intros evs ps E A. apply Ts. exact (T m t pm pk base evs ps eq_refl W E A). }
      exists s'. split; [exact I'|]. split; [intros k B; exact (Mo k (Mo1 k B))|]. split; [|rewrite Er; exact Q].
      intros d' h' m' t' pm' pk' base' evs R Em W' Ee. injection Em as <-. rewrite Er in R.
      assert (V : t' = t ∧ pm' = pm ∧ pk' = pk ∧ base' = base).
      { destruct W; inversion W'; subst; try done; auto. }
      destruct V as (-> & -> & -> & ->). exact (L d' h' R evs Ee).
    + exists s. split; [exact I|]. split; [exact (λ _ x, x)|]. split; [intros d' h' m' t' pm' pk' base' evs _ _ W; inversion W; by subst|]. cbn [known] in K.
      assert (P1 : pk ≠ []).
      { intros ->. pose proof (forallb_in _ _ packages_full _ (elem_of_zip_r _ _ _ _ K)). discriminate. }
      assert (P2 : pm ≠ []).
      { intros ->. pose proof (group_keys t [] pk K) as G. destruct pk; [exact (P1 eq_refl)|discriminate G]. }
      unfold call_importing, cimread_imports, call, cimread. rewrite X. destruct pk as [|a pk]; [destruct (P1 eq_refl)|].
      destruct pm as [|b pm]; [destruct (P2 eq_refl)|]. reflexivity.
  - exists s. split; [exact I|]. split; [exact (λ _ x, x)|]. split; [discriminate|]. unfold call_importing, cimread_imports, call, cimread. rewrite X. reflexivity.
Qed.
Print Assumptions C106_timely.

(** Otherwise the call ends with an ImportError at the first object whose package
    comes too early, unless the class of an object before it refuses the object; the
    dictionary holds the objects before it, and no property has been read. *)
Theorem C106_early f fuel pf w src sd h s m t pm pk base evs ps : length modules < f → interpreter f s → known w →
  xmlns src = inl m → works_with m w t pm pk base → skip_root (s_events src) = Some evs →
  asks base (rdf_ns m) pk false evs ps → ¬ timely s ps →
  ∃ evs1 e evs2 ps1 p l id s', evs = evs1 ++ EEnd e :: evs2 ∧ asks base (rdf_ns m) pk false evs1 ps1 ∧ timely s ps1 ∧
    names_object base (rdf_ns m) e l id ∧ first_is l p pk ∧ ¬ timely s (ps1 ++ [p]) ∧
    call_importing f fuel pf w src sd h s =
      match pass1 t pm fuel base (rdf_ns m) false evs1 false (default [] sd) h with
      | (None, d1, h1) => (Some (ImportFailed ImportError), d1, h1, s')
      | (Some x, d1, h1) => (Some (Raised x), d1, h1, s')
      end.
Proof.
  intros F I K X W E A N. destruct (call_read f fuel pf w src sd h s m t pm pk base F I K X W) as (Z & s' & I' & Ts & _ & _ & R).
  assert (N' : ¬ timely s' ps) by (rewrite <- (Ts ps); exact N).
  destruct (reads_early f fuel t pm pk base (rdf_ns m) F Z pf src (default [] sd) h s' evs ps I' E A N')
    as (evs1 & e & evs2 & ps1 & p & c' & s2 & Ev & A1 & T1 & (_ & l & id & AF1 & AF2) & T2 & Q).
  exists evs1, e, evs2, ps1, p, l, id, s2. split; [exact Ev|]. split; [exact A1|]. split; [by apply Ts|]. split; [exact AF1|].
  split; [exact AF2|]. split; [rewrite (Ts (ps1 ++ [p])); exact T2|]. rewrite R, Q.
  destruct (pass1 t pm fuel base (rdf_ns m) false evs1 false (default [] sd) h) as [[[x|] d1] h1]; reflexivity.
Qed.
Print Assumptions C106_early.

(** Only two maps have packages for dynamics. *)
Local Transparent packages.
Definition calm_b (pk : list (name * positive)) : bool := forallb (λ tp, not_in dynamics tp.2 && not_in entsoe_dynamics tp.2) pk.
Lemma calm_packages : packages = cim14_packages :: take 7 (tail packages) ++ cim14_entsoe_dynamics_packages :: drop 9 packages.
Proof. reflexivity. Qed.
Lemma calm_true : forallb calm_b (take 7 (tail packages) ++ drop 9 packages) = true.
Proof. vm_compute. reflexivity. Qed.
Local Opaque packages.
Lemma calm pk : pk ∈ packages → pk ≠ cim14_packages → pk ≠ cim14_entsoe_dynamics_packages → calm_b pk = true.
Proof.
  rewrite calm_packages. pose proof calm_true as C. revert C. generalize (take 7 (tail packages)) (drop 9 packages).
  generalize cim14_packages cim14_entsoe_dynamics_packages. intros a b l1 l2 C X N1 N2.
  apply (forallb_in _ _ C). apply elem_of_cons in X as [->|X]; [destruct (N1 eq_refl)|].
  apply elem_of_app in X as [X|X]; apply elem_of_app; [by left|]. apply elem_of_cons in X as [->|X]; [destruct (N2 eq_refl)|by right].
Qed.
Lemma asks_from base rdf pk c evs ps : asks base rdf pk c evs ps → ∀ p, p ∈ ps → ∃ l, (l, p) ∈ pk.
Proof.
  induction 1 as [| | |c e p evs ps (_ & l & id & _ & (a & b & -> & _)) _ IH|]; intros q X; try (destruct (not_elem_of_nil _ X)); auto.
  apply elem_of_cons in X as [->|X]; [exists l; apply elem_of_app; right; left|]. exact (IH q X).
Qed.
Theorem C106_always f fuel pf w src sd h s : length modules < f → interpreter f s → known w →
  (∀ m t pm pk base, xmlns src = inl m → works_with m w t pm pk base → pk ≠ cim14_packages ∧ pk ≠ cim14_entsoe_dynamics_packages) →
  ∃ s', interpreter f s' ∧ call_importing f fuel pf w src sd h s = of_res (call fuel pf w src sd h) s'.
Proof.
  intros F I K H. destruct (C106_timely f fuel pf w src sd h s F I K) as (s' & I' & _ & _ & Q); [|exists s'; split; [exact I'|exact Q]].
  intros m t pm pk base evs ps X W E A. destruct (H m t pm pk base X W) as [N1 N2].
  assert (Z : ((t, pm), pk) ∈ zip tables packages) by (by destruct (call_read f fuel pf w src sd h s m t pm pk base F I K X W)).
  pose proof (calm pk (elem_of_zip_r _ _ _ _ Z) N1 N2) as C. unfold calm_b in C.
  intros ps1 p ps2 -> d w' Y In. exfalso. destruct (asks_from _ _ _ _ _ _ A p) as [l Q]; [apply elem_of_app; right; left|].
  pose proof (forallb_in _ _ C _ Q) as V. cbn beta iota delta [fst snd] in V. apply andb_prop in V as [V1 V2].
  rewrite not_in_ok in V1. rewrite not_in_ok in V2. apply inside_ok in In.
  apply elem_of_cons in Y as [Y|Y]; [|apply elem_of_list_singleton in Y]; injection Y as -> ->; [exact (V1 In)|exact (V2 In)].
Qed.
Print Assumptions C106_always.

(** Once the two packages for wires are imported, no document depends on the imports. *)
Theorem C106_ready f fuel pf w src sd h s : length modules < f → interpreter f s → known w → in_sys s wires → in_sys s entsoe_wires →
  ∃ s', interpreter f s' ∧ call_importing f fuel pf w src sd h s = of_res (call fuel pf w src sd h) s'.
Proof.
  intros F I K A B. destruct (C106_timely f fuel pf w src sd h s F I K) as (s' & I' & _ & _ & Q); [|exists s'; split; [exact I'|exact Q]].
  intros m t pm pk base evs ps _ _ _ _ ps1 p ps2 _ d w' Y _. left.
  apply elem_of_cons in Y as [Y|Y]; [|apply elem_of_list_singleton in Y]; injection Y as -> ->; [exact A|exact B].
Qed.
Print Assumptions C106_ready.

(** A rotating machine alone, and after a line segment, in a fresh interpreter. *)
Definition doc_obj (n : string) (i : string) : list event :=
  let e := Elem (u "{" ++ cim14_uri ++ u "#}" ++ u n) [(rdf_key (u "http://www.w3.org/1999/02/22-rdf-syntax-ns#") "ID", u i)] None false in [EStart e; EEnd e].
Definition doc_of (l : list event) : source :=
  Source ([ENs (u "cim") (cim14_uri ++ u "#"); EStart ReadDemo.root] ++ l ++ [EEnd ReadDemo.root]) false.
Definition machine_doc : source := doc_of (doc_obj "RotatingMachine" "m").
Definition line_doc : source := doc_of (doc_obj "ACLineSegment" "l" ++ doc_obj "RotatingMachine" "m").
Local Transparent table modules.
Theorem C106_refuted : ∃ src, fst (fst (call 50 (λ _, None) Detect src None heap_empty)) = None ∧
  fst (fst (call_importing 2000 50 (λ _, None) Detect src None heap_empty ∅)) = (Some (ImportFailed ImportError), []).
Proof. exists machine_doc. vm_compute. done. Qed.
Print Assumptions C106_refuted.
Example C106_line : fst (fst (fst (call_importing 2000 50 (λ _, None) Detect line_doc None heap_empty ∅))) = None.
Proof. vm_compute. reflexivity. Qed.
Example C106_line_timely : ∃ m evs, xmlns line_doc = inl m ∧ works_with m Detect cim14 cim14_map cim14_packages (u "{" ++ cim14_uri ++ u "#}") ∧
  skip_root (s_events line_doc) = Some evs ∧ asks (u "{" ++ cim14_uri ++ u "#}") (rdf_ns m) cim14_packages false evs [wires; dynamics] ∧
  timely ∅ [wires; dynamics] ∧ ¬ timely ∅ [dynamics].
Proof.
  exists [(u "cim", cim14_uri ++ u "#")], (doc_obj "ACLineSegment" "l" ++ doc_obj "RotatingMachine" "m" ++ [EEnd ReadDemo.root]).
  split; [reflexivity|]. split; [constructor; exists (cim14_uri ++ u "#"); split; [reflexivity|vm_compute; reflexivity]|]. split; [reflexivity|]. split.
  - apply asks_start, asks_object.
    { apply asks_for_iff. split; [vm_compute; reflexivity|]. split; [exists (u "l"); vm_compute; reflexivity|vm_compute; reflexivity]. }
    apply asks_start, asks_object.
    { apply asks_for_iff. split; [vm_compute; reflexivity|]. split; [exists (u "m"); vm_compute; reflexivity|vm_compute; reflexivity]. }
    apply asks_other; [|constructor]. intros p (X & _)%asks_for_iff. revert X. vm_compute. discriminate.
  - assert (E : (import_module table 2000 wires ∅).1 = None) by (vm_compute; reflexivity).
    Local Opaque table modules.
    destruct (import_module table 2000 wires ∅) as [e s] eqn:R. cbn [fst] in E. subst e.
    pose proof (C105_loads 2000 ∅ wires s (int_fresh _) R) as L.
    assert (Em : ∀ k, ¬ in_sys ∅ k) by (intros k [x Y]; rewrite lookup_empty in Y; discriminate Y).
    split.
    + apply (timely_cons ∅ s wires [dynamics] L). split.
      * intros [[Y _]|[Y _]]; apply inside_ok in Y; revert Y; apply not_in_ok; vm_compute; reflexivity.
      * intros [|x [|y z]] p ps2 Q d w X In; try discriminate Q. injection Q as <- <-. left. apply L. right.
        apply elem_of_cons in X as [X|X]; [|apply elem_of_list_singleton in X]; injection X as -> ->; [apply rtc_refl|].
        exfalso. apply inside_ok in In. revert In. apply not_in_ok. vm_compute. reflexivity.
    + intros T. destruct (T [] dynamics [] eq_refl dynamics wires) as [Y|(q & Y & _)]; [left|by left|exact (Em _ Y)|destruct (not_elem_of_nil _ Y)].
Qed.
