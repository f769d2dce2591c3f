(** What any import leaves behind, whether it succeeds or fails, for any table of
    modules whose statements are in order.  After a failed import a package can be
    missing although modules in it are loaded; everything else is as in
    [ImportFacts.v]. *)
From Coq Require Import String PArith.
From stdpp Require Import prelude gmap.
From Verif Require Import PyStr PyHeap Schema Imports ImportFacts ImportLoads.

Section fails.
Context (P : gmap positive module).
Notation loaded := ImportFacts.loaded (only parsing).
Notation body := (body P).
Notation last_name := (last_name P).
Notation targets := (targets P).
Notation ups := (ups P).

(** The modules [K] are being executed, all other loaded modules are complete. *)
Record Settled (s : session) (K : list positive) : Prop := {
  se_known : ∀ m, loaded s m → is_Some (P !! m);
  se_stack : ∀ k, k ∈ K → loaded s k;
  se_parent : ∀ k p r, k ∈ K → ups k = p :: r → loaded s p;
  se_from : ∀ m t n, loaded s m → m ∉ K → SFrom t n ∈ body m → loaded s t ∧ t ∉ K ∧ (look s m n = Some (BClass t n) ∨ ∃ base, SClass n base ∈ body m);
  se_class : ∀ m n base, loaded s m → m ∉ K → SClass n base ∈ body m → look s m n = Some (BClass m n) }.

(** [Later] without the module [m] that is being executed. *)
Record Later_but (m : positive) (s s' : session) : Prop := {
  lb_stay : ∀ k, loaded s k → loaded s' k;
  lb_names : ∀ k n, loaded s k → look s' k n = look s k n ∨
    ∃ c r, ups c = k :: r ∧ last_name c = n ∧ ¬ loaded s c ∧ loaded s' c ∧ c ≠ m }.
Lemma later_but_later m s s' : Later_but m s s' → Later P s s'.
Proof. intros [A B]. split; [exact A|]. intros k n L. destruct (B k n L) as [?|(c & r & ? & ? & ? & ? & _)]; [by left|right; by exists c, r]. Qed.
Lemma later_but_step m s0 s s' : Later_but m s0 s → loaded s m → Later P s s' → Later_but m s0 s'.
Proof.
  intros [A1 B1] Lm [A2 B2]. split; [auto|]. intros k n L. destruct (B2 k n (A1 k L)) as [E|(c & r & U & N & X & Y)].
  - destruct (B1 k n L) as [E'|(c & r & U & N & X & Y & Z)]; [left; congruence|right; exists c, r].
    split; [done|]. split; [done|]. split; [done|]. split; [by apply A2|done].
  - right. exists c, r. split; [done|]. split; [done|]. split; [intros Z; by apply X, A1|]. split; [done|]. intros ->. done.
Qed.
Lemma later_but_bind m s0 s n b : Later_but m s0 s → loaded s m → ¬ loaded s0 m → Later_but m s0 (bind_name m n b s).
Proof.
  intros [A B] Lm N. split.
  - intros k L. rewrite loaded_bind. auto.
  - intros k j L. rewrite look_bind by done. rewrite decide_False by (intros [-> _]; done).
    destruct (B k j L) as [?|(c & r & ? & ? & ? & ? & ?)]; [by left|right]. exists c, r. rewrite loaded_bind. repeat (split; [done|]). done.
Qed.

Context (O : Orderly P).
Context (OP : ∀ m y, ¬ NoDup (stmt_name <$> body m) → m ∈ targets y → ∃ r, ups m = y :: r).

Lemma settled_bind s K m n b : Settled s K → m ∈ K → Settled (bind_name m n b s) K.
Proof.
  intros [S1 S2 S3 S4 S5] I. pose proof (S2 m I) as Lm. split.
  - intros k L. rewrite loaded_bind in L. auto.
  - intros k K1. rewrite loaded_bind. auto.
  - intros k p r K1 U. rewrite loaded_bind. eauto.
  - intros k t j L N B. rewrite loaded_bind in L. destruct (S4 k t j L N B) as (A1 & A2 & A3).
    rewrite loaded_bind, look_bind by done. rewrite decide_False; [done|]. intros [-> _]. done.
  - intros k j base L N B. rewrite loaded_bind in L. rewrite look_bind by done.
    rewrite decide_False; [eauto|]. intros [-> _]. done.
Qed.

Definition Leaves (f : nat) (imp : positive → session → option import_error * session) : Prop :=
  ∀ m s e s' K, Settled s K → Unmade P s K → is_Some (P !! m) → size P < f + size s → imp m s = (e, s') →
    Settled s' K ∧ Later P s s' ∧ match e with None => loaded s' m | Some x => x = ImportError end.

Section run.
Context (f : nat) (imp : positive → session → option import_error * session) (HL : Leaves f imp).

Lemma nodup_dec m : NoDup (stmt_name <$> body m) ∨ ¬ NoDup (stmt_name <$> body m).
Proof. destruct (decide (NoDup (stmt_name <$> body m))); auto. Qed.

Lemma froms_leave m K s0 cs done rest s e s' :
  body m = done ++ cs ++ rest → Forall is_from cs → NoDup (stmt_name <$> (done ++ cs)) → m ∉ K → Settled s0 K →
  ¬ loaded s0 m → Later_but m s0 s → Settled s (m :: K) → Unmade P s (m :: K) → Bound_froms s (m :: K) m done → size P < f + size s →
  run_body P imp m cs s = (e, s') →
  Later_but m s0 s' ∧ Settled s' (m :: K) ∧ Unmade P s' (m :: K) ∧
  match e with None => Bound_froms s' (m :: K) m (done ++ cs) | Some x => x = ImportError end.
Proof using All.
  revert done s. induction cs as [|c cs IH]; intros done s B F NF NK SO0 N0 L SO U BF SZ R.
  { cbn in R. injection R as <- <-. rewrite app_nil_r. auto. }
  apply Forall_cons in F as [Fc F]. destruct c as [t n| |]; [|by destruct Fc..].
  cbn [run_body run_stmt] in R.
  assert (InB : SFrom t n ∈ body m) by (rewrite B; set_solver).
  destruct (o_target P O m t n InB) as (KP & Npkg & base & CB).
  pose proof (se_stack _ _ SO m ltac:(set_solver)) as Lm.
  destruct (imp t s) as [e1 s1] eqn:I1.
  destruct (HL t s e1 s1 (m :: K) SO U KP SZ I1) as (SO1 & L1 & T1).
  pose proof (unmade_later P O s s1 (m :: K) U L1 (se_stack _ _ SO)) as U1.
  pose proof (later_but_step m s0 s s1 L Lm L1) as L01.
  destruct e1 as [x|].
  { injection R as <- <-. auto. }
  destruct (look s1 t n) as [b|] eqn:Lk; [|injection R as <- <-; rewrite Npkg; auto].
  assert (Tn : t ∉ m :: K).
  { intros X. assert (InT : t ∈ targets m) by (apply elem_of_list_omap; by exists (SFrom t n)).
    destruct (nodup_dec t) as [ND|ND].
    - pose proof (U1 t n base X Npkg ND CB) as Y. congruence.
    - apply elem_of_cons in X as [->|X]; [by apply (o_self P O m)|].
      destruct (OP t m ND InT) as [r Er]. exact (N0 (se_parent _ _ SO0 t m r X Er)). }
  assert (b = BClass t n) as ->.
  { pose proof (se_class _ _ SO1 t n base T1 Tn CB). congruence. }
  pose proof (la_stay _ _ _ L1 m Lm) as Lm1.
  assert (App : ∀ c', c' ∈ done → stmt_name c' ≠ n).
  { intros c' I'. apply (names_apart done (SFrom t n :: cs) c' (SFrom t n) NF I'). set_solver. }
  eapply (IH (done ++ [SFrom t n]) (bind_name m n (BClass t n) s1)) in R.
  - rewrite <- app_assoc in R. exact R.
  - rewrite <- app_assoc. exact B.
  - exact F.
  - rewrite <- app_assoc. exact NF.
  - exact NK.
  - exact SO0.
  - exact N0.
  - by apply later_but_bind.
  - apply settled_bind; [done|set_solver].
  - intros k j bs Ik Pk ND Cj. rewrite look_bind by done. case_decide as D; [|by apply (U1 k j bs)].
    destruct D as [-> ->]. exfalso.
    assert (X : SClass n bs ∈ done ++ cs ++ rest ∨ SClass n bs = SFrom t n) by (rewrite B in Cj; set_solver).
    destruct X as [X|X]; [|discriminate].
    rewrite B in ND. rewrite !elem_of_app in X. destruct X as [X|X].
    + exact (App _ X eq_refl).
    + rewrite fmap_app, NoDup_app in ND. destruct ND as (_ & _ & ND). cbn in ND. apply NoDup_cons in ND as [ND _].
      apply ND. change n with (stmt_name (SClass n bs)). apply elem_of_list_fmap_1. set_solver.
  - intros t' n' I'. apply elem_of_app in I' as [I'|I'].
    + destruct (BF t' n' I') as (A1 & A2 & A3). rewrite loaded_bind, look_bind by done.
      split; [by apply (la_stay _ _ _ L1)|]. split; [done|].
      rewrite decide_False by (intros [_ E]; exact (App _ I' E)).
      destruct (la_names _ _ _ L1 m n' Lm) as [E|(c & r & Uc & Nc & Nl & _)]; [congruence|].
      exfalso. apply Nl. destruct (o_child P O c m r Uc) as [Q _]. rewrite Nc in Q.
      rewrite <- (Q t'); [done|]. rewrite B. set_solver.
    + apply elem_of_list_singleton in I'. injection I' as -> ->.
      rewrite loaded_bind, look_bind by done. rewrite decide_True by done. done.
  - assert (size s ≤ size (bind_name m n (BClass t n) s1)); [|lia]. apply size_later. intros k X. rewrite loaded_bind. by apply (la_stay _ _ _ L1).
Qed.

Definition Bound_mostly (s : session) (K : list positive) (m : positive) (cs : list stmt) : Prop :=
  ∀ t n, SFrom t n ∈ cs → loaded s t ∧ t ∉ K ∧ (look s m n = Some (BClass t n) ∨ ∃ base, SClass n base ∈ body m).
Lemma tail_leaves m K s0 fs cs done s s' :
  body m = fs ++ done ++ cs → Forall is_from fs → Forall (λ c, ¬ is_from c) cs → NoDup (stmt_name <$> (done ++ cs)) →
  Forall (λ c, ¬ is_from c) done → m ∉ K →
  ¬ loaded s0 m → Later_but m s0 s → Settled s (m :: K) → Bound_mostly s (m :: K) m fs → Bound_classes s m done →
  run_body P imp m cs s = (None, s') →
  Later_but m s0 s' ∧ Settled s' (m :: K) ∧ Bound_mostly s' (m :: K) m (body m) ∧ Bound_classes s' m (body m).
Proof using All.
  revert done s. induction cs as [|c cs IH]; intros done s B Ff F NT Fd NK N0 L SO BF BC R.
  { cbn in R. injection R as <-. rewrite app_nil_r in B. rewrite B. split; [done|]. split; [done|]. split.
    - intros t n I. apply elem_of_app in I as [I|I]; [by apply BF|]. rewrite Forall_forall in Fd. by destruct (Fd _ I).
    - intros n bs I. apply elem_of_app in I as [I|I]; [|by apply (BC n bs)]. rewrite Forall_forall in Ff. by destruct (Ff _ I). }
  apply Forall_cons in F as [Fc F].
  pose proof (se_stack _ _ SO m ltac:(set_solver)) as Lm.
  assert (Go : ∃ b, run_stmt P imp m c s = (None, bind_name m (stmt_name c) b s) ∧ (∀ n bs, c = SClass n bs → b = BClass m n)
     ∧ run_body P imp m cs (bind_name m (stmt_name c) b s) = (None, s')).
  { cbn [run_body] in R. destruct c as [t n|n [b|]|n]; [exfalso; by apply Fc|..]; cbn [run_stmt] in R |- *.
    - destruct (look s m b) as [[]|]; try discriminate. eexists. split; [done|]. split; [|exact R]. intros ?? ?; congruence.
    - eexists. split; [done|]. split; [|exact R]. intros ?? ?; congruence.
    - eexists. split; [done|]. split; [|exact R]. done. }
  clear R. destruct Go as (b & _ & Hb & R).
  assert (App : ∀ c', c' ∈ done → stmt_name c' ≠ stmt_name c).
  { intros c' I'. apply (names_apart done (c :: cs) c' c NT I'). set_solver. }
  eapply (IH (done ++ [c]) (bind_name m (stmt_name c) b s)) in R.
  - exact R.
  - rewrite <- app_assoc. exact B.
  - exact Ff.
  - exact F.
  - rewrite <- app_assoc. exact NT.
  - apply Forall_app. split; [done|by apply Forall_singleton].
  - exact NK.
  - exact N0.
  - by apply later_but_bind.
  - apply settled_bind; [done|set_solver].
  - intros t' n' I'. destruct (BF t' n' I') as (A1 & A2 & A3). rewrite loaded_bind, look_bind by done.
    split; [done|]. split; [done|]. case_decide as D; [|done]. destruct D as [_ ->]. right.
    destruct (o_shadow P O m t' (stmt_name c)) as [bs Y].
    + rewrite B. set_solver.
    + exists c. rewrite B. split; [set_solver|done].
    + by exists bs.
  - intros n' bs I'. rewrite look_bind by done. apply elem_of_app in I' as [I'|I'].
    + rewrite decide_False; [by apply (BC n' bs)|]. intros [_ E]. exact (App _ I' E).
    + apply elem_of_list_singleton in I'. rewrite decide_True by (subst c; done). f_equal. by apply (Hb n' bs).
Qed.

Lemma later_but_insert s m : ¬ loaded s m → Later_but m s (<[m := []]> s).
Proof.
  intros N. split.
  - intros k L. rewrite loaded_insert. by right.
  - intros k n L. left. rewrite look_insert. rewrite decide_False; [done|]. intros ->. done.
Qed.
Lemma settled_insert s m K : Settled s K → ¬ loaded s m → is_Some (P !! m) → (∀ p r, ups m = p :: r → loaded s p) → Settled (<[m := []]> s) (m :: K).
Proof.
  intros [S1 S2 S3 S4 S5] N KP A. split.
  - intros k L. rewrite loaded_insert in L; destruct L as [->|L]; auto.
  - intros k I. rewrite loaded_insert. apply elem_of_cons in I as [->|I]; auto.
  - intros k p r I U. rewrite loaded_insert. right. apply elem_of_cons in I as [->|I]; eauto.
  - intros k t n L NK B. apply not_elem_of_cons in NK as [N1 N2]. rewrite loaded_insert in L; destruct L as [->|L]; [done|].
    destruct (S4 k t n L N2 B) as (A1 & A2 & A3). rewrite loaded_insert, look_insert, decide_False by done.
    split; [by right|]. split; [|done]. apply not_elem_of_cons. split; [|done]. intros ->. done.
  - intros k n bs L NK B. apply not_elem_of_cons in NK as [N1 N2]. rewrite loaded_insert in L; destruct L as [->|L]; [done|].
    rewrite look_insert, decide_False by done. eauto.
Qed.
Lemma loaded_delete s m k : loaded (delete m s) k ↔ k ≠ m ∧ loaded s k.
Proof.
  unfold ImportFacts.loaded. destruct (decide (k = m)) as [->|N]; [rewrite lookup_delete|rewrite lookup_delete_ne by done].
  - split; [intros [? X]; discriminate|by intros []].
  - tauto.
Qed.
Lemma look_delete s m k n : k ≠ m → look (delete m s) k n = look s k n.
Proof. intros N. unfold look. by rewrite lookup_delete_ne. Qed.

Lemma load_leaves m s e s' K : Settled s K → Unmade P s K → is_Some (P !! m) → ¬ loaded s m → (∀ p r, ups m = p :: r → loaded s p) →
  size P < S f + size s → load P imp m s = (e, s') →
  Settled s' K ∧ Later P s s' ∧ match e with None => loaded s' m | Some x => x = ImportError end.
Proof using All.
  intros SO U [M EM] N A SZ R. unfold load in R. rewrite EM in R.
  assert (EB : body m = m_body M) by (unfold ImportFacts.body; by rewrite EM).
  assert (EU : ups m = m_up M) by (unfold Imports.ups; by rewrite EM).
  assert (EN : last_name m = m_last M) by (unfold ImportFacts.last_name; by rewrite EM).
  rewrite <- EB, <- EU, <- EN in R.
  assert (NK : m ∉ K) by (intros X; by apply N, (se_stack _ _ SO)).
  destruct (o_first P O m) as (fs & r & Eb & Ff & Fr & Nf & Nr). rewrite Eb, run_body_app in R.
  destruct (run_body P imp m fs (<[m := []]> s)) as [e1 s1] eqn:R1.
  destruct (froms_leave m K s fs [] r (<[m := []]> s) e1 s1 Eb Ff Nf NK SO N (later_but_insert s m N)
    (settled_insert s m K SO N (mk_is_Some _ _ EM) A) (unmade_insert P s m K U N)) as (L1 & SO1 & U1 & BF1); [| |exact R1|].
  { intros t n I. by apply elem_of_nil in I. }
  { rewrite size_insert_new by done. lia. }
  destruct e1 as [x|].
  { injection R as <- <-. split; [|split; [|done]].
    - destruct SO1 as [S1 S2 S3 S4 S5]. split.
      + intros k L. rewrite loaded_delete in L. exact (S1 k (proj2 L)).
      + intros k I. rewrite loaded_delete. split; [by intros ->|]. apply S2. by right.
      + intros k p rr I Ek. rewrite loaded_delete. split.
        * intros ->. exact (N (se_parent _ _ SO k m rr I Ek)).
        * apply (S3 k p rr); [by right|done].
      + intros k t n L Nk B. rewrite loaded_delete in L. destruct L as [L1' L2'].
        destruct (S4 k t n L2') as (Q1 & Q2 & Q3); [set_solver|done|]. apply not_elem_of_cons in Q2 as [Q2 Q4].
        rewrite loaded_delete, look_delete by done. auto.
      + intros k n bs L Nk B. rewrite loaded_delete in L. destruct L as [L1' L2']. rewrite look_delete by done.
        apply (S5 k n bs L2'); [set_solver|done].
    - destruct L1 as [A1 B1]. split.
      + intros k L. rewrite loaded_delete. split; [by intros ->|auto].
      + intros k n L. rewrite look_delete by (by intros ->). destruct (B1 k n L) as [?|(c & r' & ? & ? & ? & ? & ?)]; [by left|right].
        exists c, r'. rewrite loaded_delete. auto. }
  cbn in BF1.
  destruct (run_body P imp m r s1) as [e2 s2] eqn:R2.
  assert (e2 = None) as ->.
  { destruct (tail_work P imp m r s1) as (s3 & R3).
    + apply (se_stack _ _ SO1). set_solver.
    + done.
    + intros pre n b post Er. destruct (o_base P O m (fs ++ pre) n b post) as [[t T] Y]; [by rewrite Eb, Er, app_assoc|].
      assert (T' : SFrom t b ∈ fs).
      { apply elem_of_app in T as [T|T]; [done|]. rewrite Forall_forall in Fr. destruct (Fr (SFrom t b)); [|done]. rewrite Er. set_solver. }
      split; [exists t; by destruct (BF1 t b T') as (_ & _ & ?)|].
      intros c I. apply Y; [set_solver|]. rewrite Forall_forall in Fr. apply Fr. rewrite Er. set_solver.
    + congruence. }
  injection R as <- <-.
  destruct (tail_leaves m K s fs r [] s1 s2 Eb Ff Fr Nr (Forall_nil_2 _) NK N L1 SO1) as (L2 & SO2 & BF2 & BC2); [| |exact R2|].
  { intros t n I. destruct (BF1 t n I) as (? & ? & ?). auto. }
  { intros n bs I. by apply elem_of_nil in I. }
  pose proof (se_stack _ _ SO2 m ltac:(set_solver)) as Lm. apply later_but_later in L2.
  assert (SO3 : Settled s2 K).
  { destruct SO2 as [S1 S2 S3 S4 S5]. split; [exact S1| | | |].
    - intros k I. apply S2. set_solver.
    - intros k p rr I. apply S3. set_solver.
    - intros k t n L Nk B. destruct (decide (k = m)) as [->|Nm].
      + destruct (BF2 t n B) as (Q1 & Q2 & Q3). set_solver.
      + destruct (S4 k t n L ltac:(set_solver) B) as (Q1 & Q2 & Q3). set_solver.
    - intros k n bs L Nk B. destruct (decide (k = m)) as [->|Nm]; [by apply (BC2 n bs)|]. apply (S5 k n bs L); [set_solver|done]. }
  destruct (ups m) as [|p rr] eqn:Eu; [auto|].
  destruct (o_child P O m p rr Eu) as [Ch1 Ch2].
  assert (Lp : loaded s p) by (by apply (A p rr)). pose proof (la_stay _ _ _ L2 p Lp) as Lp2.
  split; [|split].
  - destruct SO3 as [S1 S2 S3 S4 S5]. split.
    + intros k L. rewrite loaded_bind in L. auto.
    + intros k I. rewrite loaded_bind. auto.
    + intros k q r' I Ek. rewrite loaded_bind. eauto.
    + intros k t n L Nk B. rewrite loaded_bind in L. destruct (S4 k t n L Nk B) as (Q1 & Q2 & Q3).
      rewrite loaded_bind, look_bind by done. split; [done|]. split; [done|]. rewrite decide_False; [done|].
      intros [-> ->]. pose proof (Ch1 t B) as ->.
      destruct (se_from _ _ SO2 p m (last_name m) Lp2) as (_ & X & _); [|done|set_solver].
      apply not_elem_of_cons. split; [|done]. intros ->. done.
    + intros k n bs L Nk B. rewrite loaded_bind in L. rewrite look_bind by done. rewrite decide_False; [eauto|].
      intros [-> ->]. by apply (Ch2 bs).
  - split.
    + intros k L. rewrite loaded_bind. by apply (la_stay _ _ _ L2).
    + intros k n L. rewrite look_bind by done. case_decide as D.
      * destruct D as [-> ->]. right. exists m, rr. rewrite loaded_bind. auto.
      * destruct (la_names _ _ _ L2 k n L) as [?|(c & r' & ? & ? & ? & ?)]; [by left|right].
        exists c, r'. rewrite loaded_bind. auto.
  - by rewrite loaded_bind.
Qed.

Lemma chain_leaves m s e s' K : Settled s K → Unmade P s K → is_Some (P !! m) → size P < S f + size s →
  load_chain P imp (m :: ups m) s = (e, s') →
  Settled s' K ∧ Later P s s' ∧ match e with None => loaded s' m | Some x => x = ImportError end.
Proof using All.
  remember (ups m) as l eqn:E. revert m E s e s'. induction l as [|p r IH]; intros m E s e s' SO U KM SZ R.
  - cbn in R. destruct (s !! m) as [ns|] eqn:Em.
    + injection R as <- <-. split; [done|]. split; [apply later_refl|by exists ns].
    + eapply load_leaves; [exact SO|exact U|exact KM| | |exact SZ|exact R].
      * intros [? X]. congruence.
      * rewrite <- E. discriminate.
  - destruct (o_up P O m p r (eq_sym E)) as (Kp & Ep & _).
    change (load_chain P imp (m :: p :: r) s) with (match s !! m with
      | Some _ => (None, s)
      | None => match load_chain P imp (p :: r) s with
         | (None, s') => match s' !! m with Some _ => (None, s') | None => load P imp m s' end
         | e => e end end) in R.
    destruct (s !! m) as [ns|] eqn:Em.
    { injection R as <- <-. split; [done|]. split; [apply later_refl|by exists ns]. }
    destruct (load_chain P imp (p :: r) s) as [e1 s1] eqn:R1.
    destruct (IH p (eq_sym Ep) s e1 s1 SO U Kp SZ R1) as (SO1 & L1 & Lp).
    destruct e1 as [x|]; [injection R as <- <-; auto|].
    destruct (s1 !! m) as [ns|] eqn:Em1.
    { injection R as <- <-. split; [done|]. split; [done|by exists ns]. }
    destruct (load_leaves m s1 e s' K SO1 (unmade_later P O _ _ _ U L1 (se_stack _ _ SO)) KM) as (A & B & C); [| | |exact R|].
    + intros [? X]. congruence.
    + intros q r' Q. rewrite <- E in Q. by injection Q as <- <-.
    + pose proof (size_later s s1 (la_stay _ _ _ L1)). lia.
    + split; [done|]. split; [|done]. by apply (later_trans P _ s1).
Qed.
End run.
Lemma import_leaves f : Leaves f (import_module P f).
Proof using All.
  induction f as [|f IH]; intros m s e s' K SO U KM SZ R.
  - exfalso. assert (size s ≤ size P); [|lia]. rewrite <- !size_dom. apply subseteq_size. intros k I. apply elem_of_dom in I.
    apply elem_of_dom. by apply (se_known _ _ SO).
  - cbn [import_module] in R. exact (chain_leaves f _ IH m s e s' K SO U KM SZ R).
Qed.

(** Modules at the top of a package [root] that need only modules like themselves
    can be imported whenever none of them is being executed. *)
Definition Ready (root : positive) (A : list positive) (f : nat) (x : positive) : Prop :=
  ∀ s K, Settled s K → Unmade P s K → loaded s root → (∀ y, y ∈ A → y ∉ K) → size P < f + size s → ∃ s', import_module P f x s = (None, s').
Lemma froms_ready root A f m K s0 cs done rest s :
  (∀ t, t ∈ targets m → t ∈ A ∧ Ready root A f t) → m ∉ A → (∀ y, y ∈ A → y ∉ K) → loaded s root →
  body m = done ++ cs ++ rest → Forall is_from cs → NoDup (stmt_name <$> (done ++ cs)) → m ∉ K → Settled s0 K →
  ¬ loaded s0 m → Later_but m s0 s → Settled s (m :: K) → Unmade P s (m :: K) → Bound_froms s (m :: K) m done → size P < f + size s →
  ∃ s', run_body P (import_module P f) m cs s = (None, s').
Proof using All.
  intros HT NA NAK LR. revert done s LR. induction cs as [|c cs IH]; intros done s LR B F NF NK SO0 N0 L SO U BF SZ; [by exists s|].
  apply Forall_cons in F as [Fc F]. destruct c as [t n| |]; [|by destruct Fc..].
  assert (InB : SFrom t n ∈ body m) by (rewrite B; set_solver).
  destruct (o_target P O m t n InB) as (KP & Npkg & base & CB).
  assert (InT : t ∈ targets m) by (apply elem_of_list_omap; by exists (SFrom t n)).
  destruct (HT t InT) as [At Rt].
  assert (NAK' : ∀ y, y ∈ A → y ∉ m :: K).
  { intros y Y. apply not_elem_of_cons. split; [by intros ->|by apply NAK]. }
  destruct (Rt s (m :: K) SO U LR NAK' SZ) as [s1 I1].
  destruct (import_leaves f t s None s1 (m :: K) SO U KP SZ I1) as (SO1 & L1 & T1).
  pose proof (se_class _ _ SO1 t n base T1 (NAK' t At) CB) as Lk.
  assert (R1 : run_body P (import_module P f) m [SFrom t n] s = (None, bind_name m n (BClass t n) s1)).
  { cbn [run_body run_stmt]. rewrite I1, Lk. reflexivity. }
  destruct (froms_leave f (import_module P f) (import_leaves f) m K s0 [SFrom t n] done (cs ++ rest) s None (bind_name m n (BClass t n) s1))
    as (L2 & SO2 & U2 & BF2); try done.
  { by apply Forall_singleton. }
  { change (SFrom t n :: cs) with ([SFrom t n] ++ cs) in NF. rewrite app_assoc, fmap_app in NF. by apply NoDup_app in NF as [? _]. }
  destruct (IH (done ++ [SFrom t n]) (bind_name m n (BClass t n) s1)) as [s' E']; try done.
  - rewrite loaded_bind. by apply (la_stay _ _ _ L1).
  - rewrite <- app_assoc. exact B.
  - rewrite <- app_assoc. exact NF.
  - assert (size s ≤ size (bind_name m n (BClass t n) s1)); [|lia]. apply size_later. intros k X. rewrite loaded_bind. by apply (la_stay _ _ _ L1).
  - exists s'. change (SFrom t n :: cs) with ([SFrom t n] ++ cs). rewrite run_body_app, R1. exact E'.
Qed.
Lemma load_ready root A f m s K : (∀ t, t ∈ targets m → t ∈ A ∧ Ready root A f t) → m ∉ A → (∀ y, y ∈ A → y ∉ K) →
  root = m ∨ loaded s root → is_Some (P !! m) → Settled s K → Unmade P s K → ¬ loaded s m → (∀ p r, ups m = p :: r → loaded s p) →
  size P < S f + size s → ∃ s', load P (import_module P f) m s = (None, s').
Proof using All.
  intros HT NA NAK LR [M EM] SO U N A' SZ. destruct (load P (import_module P f) m s) as [e s'] eqn:R.
  destruct e as [x|]; [exfalso|by exists s']. unfold load in R. rewrite EM in R.
  assert (EB : body m = m_body M) by (unfold ImportFacts.body; by rewrite EM). rewrite <- EB in R.
  assert (NK : m ∉ K) by (intros X; by apply N, (se_stack _ _ SO)).
  destruct (o_first P O m) as (fs & r & Eb & Ff & Fr & Nf & Nr). rewrite Eb, run_body_app in R.
  assert (B0 : Bound_froms (<[m := []]> s) (m :: K) m []) by (intros t n I; by apply elem_of_nil in I).
  assert (SZ' : size P < f + size (<[m := []]> s)) by (rewrite size_insert_new by done; lia).
  pose proof (settled_insert s m K SO N (mk_is_Some _ _ EM) A') as SI. pose proof (unmade_insert P s m K U N) as UI.
  destruct (froms_ready root A f m K s fs [] r (<[m := []]> s) HT NA NAK) as [s1 R1]; try done.
  { rewrite loaded_insert. destruct LR as [->|LR]; [by left|by right]. }
  { by apply later_but_insert. }
  rewrite R1 in R.
  destruct (froms_leave f (import_module P f) (import_leaves f) m K s fs [] r (<[m := []]> s) None s1) as (L1 & SO1 & U1 & BF1); try done.
  { by apply later_but_insert. }
  cbn in BF1. destruct (tail_work P (import_module P f) m r s1) as (s3 & R3).
  - apply (se_stack _ _ SO1). set_solver.
  - done.
  - intros pre n b post Er. destruct (o_base P O m (fs ++ pre) n b post) as [[t T] Y]; [by rewrite Eb, Er, app_assoc|].
    assert (T' : SFrom t b ∈ fs).
    { apply elem_of_app in T as [T|T]; [done|]. rewrite Forall_forall in Fr. destruct (Fr (SFrom t b)); [|done]. rewrite Er. set_solver. }
    split; [exists t; by destruct (BF1 t b T') as (_ & _ & ?)|].
    intros c I. apply Y; [set_solver|]. rewrite Forall_forall in Fr. apply Fr. rewrite Er. set_solver.
  - rewrite R3 in R. discriminate.
Qed.
Lemma ready_more root A A' f x : (∀ y, y ∈ A → y ∈ A') → Ready root A f x → Ready root A' f x.
Proof. intros H R s K SO U L N SZ. apply (R s K); auto. Qed.
(** In a list in which every module needs only later ones, all are ready. *)
Lemma all_ready root A : is_Some (P !! root) → ups root = [] → NoDup A →
  (∀ l x r, A = l ++ x :: r → is_Some (P !! x) ∧ ups x = [root] ∧ ∀ t, t ∈ targets x → t ∈ r) →
  ∀ f x, x ∈ A → Ready root A f x.
Proof using All.
  intros KR ER. induction A as [|a A IH]; intros ND H f x X; [by apply elem_of_nil in X|].
  apply NoDup_cons in ND as [Na ND].
  assert (IH' : ∀ f x, x ∈ A → Ready root A f x).
  { apply IH; [done|]. intros l y r ->. apply (H (a :: l) y r). reflexivity. }
  apply elem_of_cons in X as [->|X]; [|apply (ready_more root A); [by right|by apply IH']].
  destruct (H [] a A eq_refl) as (Ka & Ua & Ta). intros s K SO U LR NAK SZ.
  destruct f as [|f].
  { exfalso. assert (size s ≤ size P); [|lia]. rewrite <- !size_dom. apply subseteq_size. intros k I. apply elem_of_dom in I.
    apply elem_of_dom. by apply (se_known _ _ SO). }
  cbn [import_module]. rewrite Ua. cbn [load_chain]. destruct (s !! a) as [ns|] eqn:Ea; [by exists s|].
  pose proof LR as [nr Er]. rewrite Er, Ea.
  apply (load_ready root A f a s K).
  - intros t T. split; [by apply Ta|]. apply IH'. by apply Ta.
  - exact Na.
  - intros y Y. apply NAK. by right.
  - by right.
  - exact Ka.
  - exact SO.
  - exact U.
  - intros [? Y]. congruence.
  - intros p r E. rewrite Ua in E. by injection E as <- <-.
  - exact SZ.
Qed.
Lemma root_ready root A f s : is_Some (P !! root) → ups root = [] → NoDup A → root ∉ A →
  (∀ l x r, A = l ++ x :: r → is_Some (P !! x) ∧ ups x = [root] ∧ ∀ t, t ∈ targets x → t ∈ r) →
  (∀ t, t ∈ targets root → t ∈ A) → Settled s [] → size P < f + size s → ∃ s', import_module P f root s = (None, s').
Proof using All.
  intros KR ER ND NR H HT SO SZ. destruct f as [|f].
  { exfalso. assert (size s ≤ size P); [|lia]. rewrite <- !size_dom. apply subseteq_size. intros k I. apply elem_of_dom in I.
    apply elem_of_dom. by apply (se_known _ _ SO). }
  cbn [import_module]. rewrite ER. cbn [load_chain]. destruct (s !! root) as [ns|] eqn:Er; [by exists s|].
  apply (load_ready root A f root s []).
  - intros t T. split; [by apply HT|]. apply (all_ready root A KR ER ND H). by apply HT.
  - exact NR.
  - intros y _ Y. by apply elem_of_nil in Y.
  - by left.
  - exact KR.
  - exact SO.
  - apply unmade_nil.
  - intros [? Y]. congruence.
  - intros p r E. rewrite ER in E. discriminate.
  - exact SZ.
Qed.
Lemma settled_empty : Settled ∅ [].
Proof.
  assert (X : ∀ m, ¬ loaded ∅ m) by (intros m [? E]; by rewrite lookup_empty in E).
  split; [intros ? L|intros ? I|intros ??? I|intros ??? L|intros ??? L]; try (by destruct (X _ L)); by apply elem_of_nil in I.
Qed.
End fails.
