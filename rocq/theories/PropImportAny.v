(** C107: interpreters in which imports have failed. *)
From Coq Require Import String PArith.
From stdpp Require Import prelude gmap.
From Verif Require Import PyStr PyHeap Schema Assoc Names TabCIM14 TabCIM15 Tables Reader VocabSpec VocabFacts
  Imports TabImports ImportFacts ImportSpec ImportTabs ImportFails ImportReader PropImport PropImportRead PropReader PropReread.

Definition parent_b (m : positive) (M : module) : bool :=
  forallb (λ c, match c with
    | SFrom t _ => match table !! t with
       | Some Mt => names_b Mt || match m_up Mt with p :: _ => Pos.eqb m p | [] => false end
       | None => false end
    | _ => true end) (m_body M).
Lemma parents_true : forallb (λ x, parent_b x.1 x.2) modules = true.
Proof. vm_compute. reflexivity. Qed.
Local Opaque table modules tables packages.
Lemma parents m y : ¬ NoDup (stmt_name <$> body table m) → m ∈ targets table y → ∃ r, ups table m = y :: r.
Proof.
  intros N T. unfold targets in T. apply elem_of_list_omap in T as (c & I & X). destruct c as [t n| |]; try discriminate X. injection X as ->.
  apply body_at in I as (M & E & _ & I). pose proof (all_modules parent_b parents_true y M E) as A. apply (forallb_in _ _ A) in I.
  cbn beta iota in I. unfold body in N. unfold ups. destruct (table !! m) as [Mt|]; [|discriminate I].
  apply orb_prop in I as [I|I]; [by destruct N; apply apart_b_ok|]. destruct (m_up Mt) as [|p r]; [discriminate I|].
  apply Pos.eqb_eq in I as <-. by exists r.
Qed.
Lemma import_leaves_table f : Leaves table f (import_module table f).
Proof. apply import_leaves; [exact table_orderly|exact parents]. Qed.
Lemma fuel_ok f (s : session) : length modules < f → size table < f + size s.
Proof. pose proof size_table. lia. Qed.
Lemma tried_settled f s : length modules < f → tried f s → Settled table s [].
Proof.
  intros F. induction 1 as [|s m e s' _ IH E]; [apply settled_empty|].
  destruct (table !! m) as [M|] eqn:K.
  - destruct (import_leaves_table f m s e s' [] IH (unmade_nil _ _) (mk_is_Some _ _ K) (fuel_ok f s F) E) as (X & _). exact X.
  - assert (s' = s) as ->; [|exact IH]. destruct f as [|f]; [injection E as _ <-; reflexivity|]. cbn [import_module] in E.
    unfold ups in E. rewrite K in E. cbn [load_chain] in E. destruct (s !! m); [injection E as _ <-; reflexivity|].
    unfold load in E. rewrite K in E. injection E as _ <-. reflexivity.
Qed.
Lemma interpreter_tried f s : interpreter f s → tried f s.
Proof. induction 1 as [|s m s' _ IH E]; [constructor|exact (tr_import f s m None s' IH E)]. Qed.

(** In any interpreter an import loads the module or ends with an ImportError, and
    takes no module away. *)
Theorem C107_import f s m e s' : length modules < f → tried f s → is_Some (table !! m) → import_module table f m s = (e, s') →
  tried f s' ∧ (e = None ∧ in_sys s' m ∨ e = Some ImportError) ∧ ∀ k, in_sys s k → in_sys s' k.
Proof.
  intros F T K E.
  destruct (import_leaves_table f m s e s' [] (tried_settled f s F T) (unmade_nil _ _) K (fuel_ok f s F) E) as (_ & L & X).
  split; [exact (tr_import f s m e s' T E)|]. split; [|exact (la_stay _ _ _ L)].
  destruct e as [x|]; [right; by rewrite X|left; split; [reflexivity|exact X]].
Qed.
Print Assumptions C107_import.

(** The modules found in [sys.modules] are complete: every name is bound to the class
    it means, and that class is still the one of the module it comes from. *)
Theorem C107_names f s m M : length modules < f → tried f s → in_sys s m → table !! m = Some M →
  (∀ t n, SFrom t n ∈ m_body M → in_sys s t ∧ look s t n = Some (BClass t n) ∧ (look s m n = Some (BClass t n) ∨ ∃ b, SClass n b ∈ m_body M)) ∧
  ∀ n b, SClass n b ∈ m_body M → look s m n = Some (BClass m n).
Proof.
  intros F T L E. pose proof (tried_settled f s F T) as SE.
  assert (EB : body table m = m_body M) by (unfold body; by rewrite E). split.
  - intros t n X. rewrite <- EB in X. destruct (se_from _ _ _ SE m t n L (not_elem_of_nil _) X) as (A & _ & B).
    split; [exact A|]. split; [|rewrite <- EB; exact B]. destruct (o_target _ table_orderly m t n X) as (_ & _ & bs & Y).
    exact (se_class _ _ _ SE t n bs A (not_elem_of_nil _) Y).
  - intros n b X. rewrite <- EB in X. exact (se_class _ _ _ SE m n b L (not_elem_of_nil _) X).
Qed.
Print Assumptions C107_names.

Lemma binds_b_any f s p tag k : length modules < f → tried f s → in_sys s p → binds_b p tag k = true →
  ∃ m, look s p tag = Some (BClass m tag) ∧ k = class_path m tag.
Proof.
  intros F T L E. pose proof (tried_settled f s F T) as SE. unfold binds_b in E. apply existsb_in in E as (c & Ic & E).
  destruct c as [m n|n b|n]; [| |discriminate].
  - apply andb_prop in E as [E E3]. apply andb_prop in E as [E1 E2]. apply str_eqb_eq in E1 as ->. apply str_eqb_eq in E2 as <-.
    exists m. split; [|reflexivity].
    destruct (se_from _ _ _ SE p m tag L (not_elem_of_nil _) Ic) as (_ & _ & [X|[b X]]); [exact X|]. exfalso.
    apply negb_true_iff in E3. rewrite <- not_true_iff_false in E3. apply E3. apply existsb_exists. exists (SClass tag b).
    split; [exact (proj1 (elem_of_list_In _ _) X)|apply str_eqb_refl].
  - apply andb_prop in E as [E1 E2]. apply str_eqb_eq in E1 as ->. apply str_eqb_eq in E2 as <-.
    exists p. split; [|reflexivity]. exact (se_class _ _ _ SE p tag b L (not_elem_of_nil _) Ic).
Qed.
(** A tag leads to the class of the class table, or to an ImportError. *)
Theorem C107_class f s t (pm : list (name * name)) pk tag p : length modules < f → tried f s → ((t, pm), pk) ∈ zip tables packages →
  assoc tag pk = Some p →
  ∃ s', tried f s' ∧ (import_class table f p tag s = (inr ImportError, s') ∨
    ∃ m, import_class table f p tag s = (inl (BClass m tag), s') ∧ assoc tag pm = Some (class_path m tag)).
Proof.
  intros F T Z A. pose proof (forallb_in _ _ groups_true _ Z) as G. unfold group_b in G. cbn beta iota delta [fst snd] in G.
  apply andb_prop in G as [_ G2]. apply assoc_elem in A. pose proof (forallb_in _ _ G2 _ A) as G. cbn beta iota delta [fst snd] in G.
  destruct (assoc tag pm) as [k|] eqn:Ek; [|discriminate G].
  assert (K : is_Some (table !! p)).
  { apply elem_of_zip_r in Z. pose proof (forallb_in _ _ packages_known _ Z) as Y. pose proof (forallb_in _ _ Y _ A) as X.
    cbn beta iota delta [fst snd] in X. destruct (table !! p) as [M|]; [exists M; reflexivity|discriminate X]. }
  destruct (import_module table f p s) as [e s'] eqn:E. destruct (C107_import f s p e s' F T K E) as (T' & [[-> L]| ->] & _).
  - exists s'. split; [exact T'|right]. destruct (binds_b_any f s' p tag k F T' L G) as (m & X & ->).
    exists m. unfold import_class. rewrite E, X. split; reflexivity.
  - exists s'. split; [exact T'|left]. unfold import_class. rewrite E. reflexivity.
Qed.
Print Assumptions C107_class.

Section group.
Context (f fuel : nat) (t : schema) (pm : list (name * name)) (pk : list (name * positive)) (base rdf : pystr).
Context (F : length modules < f) (Z : ((t, pm), pk) ∈ zip tables packages).
Lemma step_any c e p d h s : tried f s → asks_for base rdf pk c e p →
  ∃ s', tried f s' ∧ (step_imports table t pk f fuel base rdf c (EEnd e) d h s = (inr (ImportFailed ImportError), h, s') ∨
    step_imports table t pk f fuel base rdf c (EEnd e) d h s =
      match pass1_step t pm fuel base rdf c (EEnd e) d h with
      | (inl d', h') => (inl d', h', s')
      | (inr x, h') => (inr (Raised x), h', s')
      end).
Proof using F Z.
  intros I A. apply asks_for_iff in A as (B & (id & U) & A).
  destruct (C107_class f s t pm pk _ p F I Z A) as (s' & T' & [E|(m & E & K)]); exists s'; (split; [exact T'|]).
  - left. unfold step_imports. rewrite B, U, A, E. reflexivity.
  - right. unfold step_imports, pass1_step. rewrite B, U, A, E, K, class_key_path. unfold bind, ret.
    destruct (construct t fuel _ [] _ h) as [[o|x] h']; reflexivity.
Qed.
Lemma pass1_any err evs : ∀ c s d h, tried f s →
  (∃ s', tried f s' ∧ pass1_imports table t pk f fuel base rdf err evs c d h s = of_res (pass1 t pm fuel base rdf err evs c d h) s') ∨
  (∃ evs1 e evs2 c' p d1 h1 s', tried f s' ∧ evs = evs1 ++ EEnd e :: evs2 ∧ asks_for base rdf pk c' e p ∧
     pass1 t pm fuel base rdf false evs1 c d h = (None, d1, h1) ∧
     pass1_imports table t pk f fuel base rdf err evs c d h s = (Some (ImportFailed ImportError), d1, h1, s')).
Proof using F Z.
  induction evs as [|ev evs IH]; intros c s d h T.
  { left. exists s. split; [exact T|]. by destruct err. }
  destruct ev as [e|e|n v].
  - destruct (IH true s d h T) as [X|(evs1 & e1 & evs2 & c' & p & d1 & h1 & s' & T' & -> & A & E1 & E2)]; [left; exact X|right].
    exists (EStart e :: evs1), e1, evs2, c', p, d1, h1, s'. split; [exact T'|]. split; [reflexivity|]. split; [exact A|]. split; [exact E1|exact E2].
  - destruct (asks_for_dec pk base rdf c e) as [[p A]|N].
    + destruct (step_any c e p d h s T A) as (s1 & T1 & [E|E]).
      * right. exists [], e, evs, c, p, d, h, s1. split; [exact T1|]. split; [reflexivity|]. split; [exact A|]. split; [reflexivity|].
        cbn [pass1_imports]. rewrite E. reflexivity.
      * cbn [pass1_imports pass1]. destruct (pass1_step t pm fuel base rdf c (EEnd e) d h) as [[d1|x] h1] eqn:E1; rewrite E.
        -- destruct (IH true s1 d1 h1 T1) as [X|(evs1 & e1 & evs2 & c' & q & d2 & h2 & s' & T' & -> & A' & Q1 & Q2)]; [left; exact X|right].
           exists (EEnd e :: evs1), e1, evs2, c', q, d2, h2, s'. split; [exact T'|]. split; [reflexivity|]. split; [exact A'|].
           cbn [pass1]. rewrite E1. split; [exact Q1|exact Q2].
        -- left. exists s1. split; [exact T1|reflexivity].
    + destruct (step_other f fuel t pm pk base rdf Z c e d h s N) as [E1 E2]. cbn [pass1_imports pass1]. rewrite E1, E2.
      destruct (IH true s d h T) as [X|(evs1 & e1 & evs2 & c' & p & d1 & h1 & s' & T' & -> & A & Q1 & Q2)]; [left; exact X|right].
      exists (EEnd e :: evs1), e1, evs2, c', p, d1, h1, s'. split; [exact T'|]. split; [reflexivity|]. split; [exact A|].
      cbn [pass1]. rewrite E2. split; [exact Q1|exact Q2].
  - destruct (IH c s d h T) as [X|(evs1 & e1 & evs2 & c' & p & d1 & h1 & s' & T' & -> & A & E1 & E2)]; [left; exact X|right].
    exists (ENs n v :: evs1), e1, evs2, c', p, d1, h1, s'. split; [exact T'|]. split; [reflexivity|]. split; [exact A|]. split; [exact E1|exact E2].
Qed.
Lemma read_any pf src d h s : tried f s →
  (∃ s', tried f s' ∧ read_imports table t pk f fuel base rdf pf src d h s = of_res (read t pm fuel pf base rdf src d h) s') ∨
  (∃ evs1 e evs2 l id p d1 h1 s', tried f s' ∧ skip_root (s_events src) = Some (evs1 ++ EEnd e :: evs2) ∧
     names_object base rdf e l id ∧ first_is l p pk ∧ pass1 t pm fuel base rdf false evs1 false d h = (None, d1, h1) ∧
     read_imports table t pk f fuel base rdf pf src d h s = (Some (ImportFailed ImportError), d1, h1, s')).
Proof using F Z.
  intros T. unfold read_imports, read. destruct (skip_root (s_events src)) as [evs|]; [|left; exists s; split; [exact T|reflexivity]].
  destruct (pass1_any (s_error src) evs false s d h T) as [(s' & T' & E)|(evs1 & e1 & evs2 & c' & p & d1 & h1 & s' & T' & -> & (_ & l & id & A1 & A2) & E1 & E2)].
  - left. exists s'. split; [exact T'|]. rewrite E. destruct (pass1 t pm fuel base rdf (s_error src) evs false d h) as [[[x|] d1] h1]; [reflexivity|].
    cbn [of_res fmap option_fmap option_map]. destruct (pass2 _ _ _ _ _ _ _ _ _) as [x h2]. reflexivity.
  - right. exists evs1, e1, evs2, l, id, p, d1, h1, s'. split; [exact T'|]. split; [reflexivity|]. split; [exact A1|]. split; [exact A2|].
    split; [exact E1|]. rewrite E2. reflexivity.
Qed.
End group.

(** [import CIM14, CIM15] succeeds in any interpreter. *)
Fixpoint ready_b (root : positive) (A : list positive) : bool :=
  match A with
  | [] => true
  | x :: r => match table !! x with
     | Some M => bool_decide (m_up M = [root]) && forallb (λ t, existsb (Pos.eqb t) r) (targets table x) && negb (existsb (Pos.eqb x) (root :: r))
     | None => false end && ready_b root r
  end.
Definition root_b (x : positive * list positive) : bool :=
  match table !! x.1 with
  | Some M => bool_decide (m_up M = []) && forallb (λ t, existsb (Pos.eqb t) x.2) (targets table x.1)
  | None => false end && ready_b x.1 x.2.
Definition tops : list (positive * list positive) := [(1, [360; 581]); (1089, [1242; 1893; 1890; 1243])]%positive.
Lemma tops_true : forallb root_b tops = true.
Proof. vm_compute. reflexivity. Qed.
Lemma eqb_in x l : existsb (Pos.eqb x) l = true ↔ x ∈ l.
Proof.
  rewrite existsb_exists. split.
  - intros (y & I & E). apply Pos.eqb_eq in E as ->. by apply elem_of_list_In.
  - intros I. exists x. split; [by apply elem_of_list_In|apply Pos.eqb_refl].
Qed.
Lemma ready_ok root A : ready_b root A = true → NoDup A ∧ root ∉ A ∧
  ∀ l x r, A = l ++ x :: r → is_Some (table !! x) ∧ ups table x = [root] ∧ ∀ t, t ∈ targets table x → t ∈ r.
Proof.
  induction A as [|a A IH]; intros E.
  - split; [constructor|]. split; [apply not_elem_of_nil|]. intros [|? ?] ?? X; discriminate X.
  - cbn [ready_b] in E. apply andb_prop in E as [E1 E2]. destruct (IH E2) as (A1 & A2 & A3).
    destruct (table !! a) as [M|] eqn:Ea; [|discriminate E1]. apply andb_prop in E1 as [E1 E5]. apply andb_prop in E1 as [E3 E4].
    apply bool_decide_eq_true in E3. apply negb_true_iff in E5. rewrite <- not_true_iff_false, eqb_in, not_elem_of_cons in E5. destruct E5 as [E5 E6].
    split; [by constructor|]. split; [apply not_elem_of_cons; split; [congruence|exact A2]|].
    intros [|y l] x r X; injection X as -> ->.
    + split; [by exists M|]. split; [unfold ups; by rewrite Ea|]. intros t T. apply eqb_in. exact (forallb_in _ _ E4 t T).
    + exact (A3 l x r eq_refl).
Qed.
Lemma roots_tried f s : length modules < f → tried f s → ∃ s', import_all table f roots s = (None, s') ∧ tried f s'.
Proof.
  intros F. assert (H : ∀ l, (∀ x, x ∈ l → x ∈ tops) → ∀ s, tried f s → ∃ s', import_all table f (map fst l) s = (None, s') ∧ tried f s').
  { induction l as [|[m A] l IH]; intros Hl s0 T; [exists s0; split; [reflexivity|exact T]|].
    pose proof (forallb_in _ _ tops_true (m, A) (Hl _ (elem_of_list_here _ _))) as B. unfold root_b in B. cbn beta iota delta [fst snd] in B.
    apply andb_prop in B as [B1 B2]. destruct (ready_ok m A B2) as (N1 & N2 & N3).
    destruct (table !! m) as [M|] eqn:Em; [|discriminate B1]. apply andb_prop in B1 as [B1 B3]. apply bool_decide_eq_true in B1.
    destruct (root_ready table table_orderly parents m A f s0) as [s1 E1].
    - exists M. exact Em.
    - unfold ups. rewrite Em. exact B1.
    - exact N1.
    - exact N2.
    - exact N3.
    - intros t X. apply eqb_in. exact (forallb_in _ _ B3 t X).
    - exact (tried_settled f s0 F T).
    - apply fuel_ok, F.
    - destruct (IH (λ x X, Hl x (elem_of_list_further _ _ _ X)) s1 (tr_import f s0 m None s1 T E1)) as (s2 & E2 & T2).
      exists s2. cbn [map fst import_all]. rewrite E1. split; [exact E2|exact T2]. }
  intros T. exact (H tops (λ x X, X) s T).
Qed.

(** Whatever imports have been tried before: a call of cimread has the result it
    would have if there were no imports, or it ends with an ImportError at an object,
    with the objects before it in the dictionary. *)
Theorem C107_reads f fuel pf w src sd h s : length modules < f → tried f s → known w →
  ∃ s', tried f s' ∧ (call_importing f fuel pf w src sd h s = of_res (call fuel pf w src sd h) s' ∨
    ∃ m t pm pk base evs1 e evs2 l id p d1 h1, xmlns src = inl m ∧ works_with m w t pm pk base ∧
      skip_root (s_events src) = Some (evs1 ++ EEnd e :: evs2) ∧ names_object base (rdf_ns m) e l id ∧ first_is l p pk ∧
      pass1 t pm fuel base (rdf_ns m) false evs1 false (default [] sd) h = (None, d1, h1) ∧
      call_importing f fuel pf w src sd h s = (Some (ImportFailed ImportError), d1, h1, s')).
Proof.
  intros F T K. destruct (xmlns src) as [m|x] eqn:X.
  2:{ exists s. split; [exact T|left]. unfold call_importing, cimread_imports, call, cimread. rewrite X. reflexivity. }
  assert (RA : ∀ t pm pk base s1, ((t, pm), pk) ∈ zip tables packages → tried f s1 → works_with m w t pm pk base →
    call fuel pf w src sd h = read t pm fuel pf base (rdf_ns m) src (default [] sd) h →
    call_importing f fuel pf w src sd h s = read_imports table t pk f fuel base (rdf_ns m) pf src (default [] sd) h s1 →
    ∃ s', tried f s' ∧ (call_importing f fuel pf w src sd h s = of_res (call fuel pf w src sd h) s' ∨
    ∃ m0 t pm pk base evs1 e evs2 l id p d1 h1, (inl m : (list (pystr * pystr) + exn)) = inl m0 ∧ works_with m0 w t pm pk base ∧
      skip_root (s_events src) = Some (evs1 ++ EEnd e :: evs2) ∧ names_object base (rdf_ns m0) e l id ∧ first_is l p pk ∧
      pass1 t pm fuel base (rdf_ns m0) false evs1 false (default [] sd) h = (None, d1, h1) ∧
      call_importing f fuel pf w src sd h s = (Some (ImportFailed ImportError), d1, h1, s'))).
  { intros t pm pk base s1 Z T1 W -> ->.
    destruct (read_any f fuel t pm pk base (rdf_ns m) F Z pf src (default [] sd) h s1 T1)
      as [(s' & T' & E)|(evs1 & e & evs2 & l & id & p & d1 & h1 & s' & T' & Q1 & Q2 & Q3 & Q4 & Q5)]; exists s'; (split; [exact T'|]).
    - left. exact E.
    - right. exists m, t, pm, pk, base, evs1, e, evs2, l, id, p, d1, h1. split; [reflexivity|]. split; [exact W|]. split; [exact Q1|].
      split; [exact Q2|]. split; [exact Q3|]. split; [exact Q4|exact Q5]. }
  destruct w as [|ns t pm pk].
  - destruct (roots_tried f s F T) as (s1 & E & T1).
    assert (D : detects14 m ∨ ¬ detects14 m).
    { destruct (str_eqb (strip_hash (default [] (assoc (u "cim") m))) cim14_uri) eqn:Q; [left|right].
      - apply str_eqb_eq in Q. destruct (assoc (u "cim") m) as [ns|] eqn:Ens.
        + exists ns. split; [exact Ens|]. rewrite <- strip_with_hash. change (strip_hash ns = cim14_uri) in Q. by rewrite Q.
        + exfalso. revert Q. clear. by vm_compute.
      - intros (ns & Ens & Hh). rewrite Ens in Q. cbv beta iota zeta delta [default from_option id] in Q. rewrite <- strip_with_hash in Hh.
        apply (proj1 (hash_inj _ _)) in Hh. rewrite Hh, str_eqb_refl in Q. discriminate. }
    destruct D as [D|D].
    + apply (RA _ _ _ _ s1 group_14 T1 (ww_14 m D)); [exact (C23_cim14 fuel pf src sd h m X D)|].
      unfold call_importing, cimread_imports. rewrite X. cbv beta iota zeta. cbn [Bool.eqb negb]. rewrite E.
      destruct D as (ns & Hns & Hh). rewrite <- strip_with_hash in Hh. apply (proj1 (hash_inj _ _)) in Hh.
      rewrite cim_detect, Hns. cbv beta iota zeta delta [default from_option id]. rewrite Hh, str_eqb_refl. reflexivity.
    + apply (RA _ _ _ _ s1 group_15 T1 (ww_15 m D)); [exact (C23_cim15 fuel pf src sd h m X D)|].
      unfold call_importing, cimread_imports. rewrite X. cbv beta iota zeta. cbn [Bool.eqb negb]. rewrite E.
      rewrite cim_detect. unfold detected_ns. rewrite <- strip_with_hash.
      destruct (str_eqb (strip_hash (default [] (assoc (u "cim") m))) cim14_uri) eqn:Q.
      * apply str_eqb_eq in Q. destruct D. destruct (assoc (u "cim") m) as [ns|] eqn:Ens.
        -- exists ns. split; [exact Ens|]. rewrite <- strip_with_hash. change (strip_hash ns = cim14_uri) in Q. by rewrite Q.
        -- exfalso. revert Q. clear. by vm_compute.
      * rewrite <- (assoc_L (++)). reflexivity.
  - cbn [known] in K.
    assert (P1 : pk ≠ []).
    { intros ->. pose proof (forallb_in _ _ packages_full _ (elem_of_zip_r _ _ _ _ K)). discriminate. }
    assert (P2 : pm ≠ []).
    { intros ->. pose proof (group_keys t [] pk K) as G. destruct pk; [exact (P1 eq_refl)|discriminate G]. }
    destruct ns as [|c ns].
    + exists s. split; [exact T|left]. unfold call_importing, cimread_imports, call, cimread. rewrite X. destruct pk as [|a pk]; [destruct (P1 eq_refl)|].
      destruct pm as [|b pm]; [destruct (P2 eq_refl)|]. reflexivity.
    + assert (N : c :: ns ≠ []) by discriminate.
      apply (RA _ _ _ _ s K T (ww_given m (c :: ns) t pm pk N)); [exact (C23_given fuel pf src sd h m t pm _ _ _ X P2 N)|].
      unfold call_importing, cimread_imports. rewrite X. destruct pk as [|a pk]; [destruct (P1 eq_refl)|]. reflexivity.
Qed.
Print Assumptions C107_reads.

(** An import that failed may succeed when it is repeated, although what it lacked is
    still not imported; it may also fail again. *)
Local Transparent table modules.
Definition has (s : session) (m : positive) : bool := match s !! m with Some _ => true | None => false end.
Definition twice (f : nat) (m w : positive) : option import_error * option import_error * bool :=
  let '(e1, s1) := import_module table f m ∅ in let '(e2, s2) := import_module table f m s1 in (e1, e2, has s2 w).
Theorem C107_again_refuted : twice 2000 dynamics wires = (Some ImportError, None, false) ∧
  twice 2000 entsoe_dynamics entsoe_wires = (Some ImportError, Some ImportError, false).
Proof. vm_compute. done. Qed.
Print Assumptions C107_again_refuted.
(** So does the call of cimread that failed with the rotating machine. *)
Example C107_machine_twice :
  let '(r1, s1) := call_importing 2000 50 (λ _, None) Detect machine_doc None heap_empty ∅ in
  let '(r2, _) := call_importing 2000 50 (λ _, None) Detect machine_doc None heap_empty s1 in
  fst r1 = (Some (ImportFailed ImportError), []) ∧ fst (fst r2) = None ∧ map fst (snd (fst r2)) = [u "m"].
Proof. vm_compute. done. Qed.
Example C107_tried : ∃ s, tried 2000 s ∧ ¬ in_sys s dynamics ∧ size s ≠ 0.
Proof.
  assert (B : negb (has (snd (import_module table 2000 dynamics ∅)) dynamics) && has (snd (import_module table 2000 dynamics ∅)) 1%positive = true) by (vm_compute; reflexivity).
  Local Opaque table modules.
  destruct (import_module table 2000 dynamics ∅) as [e s] eqn:E. cbn [snd] in B. apply andb_prop in B as [B1 B2].
  exists s. split; [exact (tr_import 2000 ∅ dynamics e s (tr_fresh _) E)|]. unfold has in B1, B2. split.
  - intros [x X]. rewrite X in B1. discriminate B1.
  - intros Z. apply map_size_empty_iff in Z. subst s. rewrite lookup_empty in B2. discriminate B2.
Qed.
