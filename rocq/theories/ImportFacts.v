(** What an import that succeeds leaves behind, for any table of modules whose
    statements are in order. *)
From Coq Require Import String PArith.
From stdpp Require Import prelude gmap.
From Verif Require Import PyStr PyHeap Schema Imports.

Section facts.
Context (P : gmap positive module).
Definition body (m : positive) : list stmt := match P !! m with Some M => m_body M | None => [] end.
Definition last_name (m : positive) : name := match P !! m with Some M => m_last M | None => [] end.
Definition stmt_name (c : stmt) : name := match c with SFrom _ n | SClass n _ | SAssign n => n end.
Definition is_from (c : stmt) : Prop := match c with SFrom _ _ => True | _ => False end.
Definition targets (m : positive) : list positive := omap (λ c, match c with SFrom t _ => Some t | _ => None end) (body m).
Definition loaded (s : session) (m : positive) : Prop := is_Some (s !! m).

(** The statements of the table are in order. *)
Record Orderly : Prop := {
  o_up : ∀ m p r, ups P m = p :: r → is_Some (P !! p) ∧ ups P p = r ∧ is_pkg P p = true;
  o_target : ∀ m t n, SFrom t n ∈ body m → is_Some (P !! t) ∧ is_pkg P t = false ∧ ∃ base, SClass n base ∈ body t;
  o_self : ∀ m, m ∉ targets m;
  o_names : ∀ m, NoDup (stmt_name <$> body m) ∨ is_pkg P m = false ∧ ∀ y, m ∈ targets y → y ∈ ups P m;
  o_first : ∀ m, ∃ fs r, body m = fs ++ r ∧ Forall is_from fs ∧ Forall (λ c, ¬ is_from c) r ∧
    NoDup (stmt_name <$> fs) ∧ NoDup (stmt_name <$> r);
  o_base : ∀ m pre n b post, body m = pre ++ SClass n (Some b) :: post →
    (∃ t, SFrom t b ∈ pre) ∧ ∀ c, c ∈ pre → ¬ is_from c → stmt_name c ≠ b;
  o_shadow : ∀ m t n, SFrom t n ∈ body m → (∃ c, c ∈ body m ∧ ¬ is_from c ∧ stmt_name c = n) → ∃ base, SClass n base ∈ body m;
  o_child : ∀ c p r, ups P c = p :: r → (∀ t, SFrom t (last_name c) ∈ body p → t = c) ∧ ∀ base, SClass (last_name c) base ∉ body p }.

(** The modules [K] are being executed, all other loaded modules are complete. *)
Record Sound (s : session) (K : list positive) : Prop := {
  so_known : ∀ m, loaded s m → is_Some (P !! m);
  so_up : ∀ m p, loaded s m → p ∈ ups P m → loaded s p;
  so_stack : ∀ k, k ∈ K → loaded s k;
  so_from : ∀ m t n, loaded s m → m ∉ K → SFrom t n ∈ body m → loaded s t ∧ t ∉ K ∧ (look s m n = Some (BClass t n) ∨ ∃ base, SClass n base ∈ body m);
  so_class : ∀ m n base, loaded s m → m ∉ K → SClass n base ∈ body m → look s m n = Some (BClass m n) }.
(** No module of [K] that is not a package has made its class, except those whose
    class has the name of its base. *)
Definition Unmade (s : session) (K : list positive) : Prop :=
  ∀ k n base, k ∈ K → is_pkg P k = false → NoDup (stmt_name <$> body k) → SClass n base ∈ body k → look s k n = None.
(** Loaded modules stay and change only by the modules that are loaded into them. *)
Record Later (s s' : session) : Prop := {
  la_stay : ∀ m, loaded s m → loaded s' m;
  la_names : ∀ m n, loaded s m → look s' m n = look s m n ∨
    ∃ c r, ups P c = m :: r ∧ last_name c = n ∧ ¬ loaded s c ∧ loaded s' c }.

Lemma later_refl s : Later s s.
Proof. split; auto. Qed.
Lemma later_trans s1 s2 s3 : Later s1 s2 → Later s2 s3 → Later s1 s3.
Proof.
  intros [A1 B1] [A2 B2]. split; [auto|]. intros m n L.
  destruct (B2 m n (A1 m L)) as [E|(c & r & U & N & X & Y)].
  - destruct (B1 m n L) as [E'|(c & r & U & N & X & Y)]; [left; congruence|right; exists c, r; auto].
  - right. exists c, r. split; [done|]. split; [done|]. split; [|done]. intros Z. apply X, A1, Z.
Qed.

Lemma assoc_cons n n' (b : binding) ns : assoc n ((n', b) :: ns) = if decide (n = n') then Some b else assoc n ns.
Proof. cbn. destruct (str_eqb n n') eqn:E; case_decide as D; try done; [by apply str_eqb_eq in E|subst; by rewrite str_eqb_refl in E]. Qed.
Lemma loaded_bind s m n b k : loaded (bind_name m n b s) k ↔ loaded s k.
Proof.
  unfold loaded, bind_name. destruct (decide (k = m)) as [->|N].
  - rewrite lookup_alter. destruct (s !! m); cbn; split; intros [x E]; eauto; discriminate.
  - by rewrite lookup_alter_ne.
Qed.
Lemma look_bind s m n b k j : loaded s m → look (bind_name m n b s) k j = if decide (k = m ∧ j = n) then Some b else look s k j.
Proof.
  intros [ns E]. unfold look, bind_name. destruct (decide (k = m)) as [->|N].
  - rewrite lookup_alter. rewrite E. cbn [fmap option_fmap option_map mbind option_bind]. rewrite assoc_cons.
    repeat case_decide; naive_solver.
  - rewrite lookup_alter_ne by done. rewrite decide_False by tauto. done.
Qed.
Lemma loaded_insert s m ns k : loaded (<[m := ns]> s) k ↔ k = m ∨ loaded s k.
Proof.
  unfold loaded. destruct (decide (k = m)) as [->|N]; [rewrite lookup_insert|rewrite lookup_insert_ne by done].
  - split; [auto|eauto].
  - split; [auto|intros [?|?]; [done|done]].
Qed.
Lemma look_insert s m k j : look (<[m := []]> s) k j = if decide (k = m) then None else look s k j.
Proof. unfold look. case_decide as E; [subst; by rewrite lookup_insert|by rewrite lookup_insert_ne]. Qed.

Context (O : Orderly).

Lemma ups_pkg m p : p ∈ ups P m → is_pkg P p = true ∧ is_Some (P !! p) ∧ (∀ q, q ∈ ups P p → q ∈ ups P m).
Proof using All.
  remember (ups P m) as l eqn:E. revert m E. induction l as [|x r IH]; intros m E I; [by apply elem_of_nil in I|].
  destruct (o_up O m x r (eq_sym E)) as (S1 & S2 & S3). apply elem_of_cons in I as [->|I].
  - split; [done|]. split; [done|]. intros q Q. rewrite S2 in Q. by right.
  - destruct (IH x (eq_sym S2) I) as (A & B & C). split; [done|]. split; [done|]. intros q Q. right. by apply C.
Qed.
Lemma child_pkg c p r : ups P c = p :: r → is_pkg P p = true.
Proof using O. intros E. by destruct (o_up O c p r E) as (_ & _ & ?). Qed.

(** Modules that are not packages change only by their own statements. *)
Lemma unmade_later s s' K : Unmade s K → Later s s' → (∀ k, k ∈ K → loaded s k) → Unmade s' K.
Proof using All.
  intros U L A k n base I Pk ND B. destruct (la_names _ _ L k n (A k I)) as [E|(c & r & E & _)].
  - rewrite E. by apply (U k n base).
  - apply child_pkg in E. congruence.
Qed.

(** The bindings made so far by the statements [cs] of [m]. *)
Definition Bound_froms (s : session) (K : list positive) (m : positive) (cs : list stmt) : Prop :=
  ∀ t n, SFrom t n ∈ cs → loaded s t ∧ t ∉ K ∧ look s m n = Some (BClass t n).
Definition Bound_classes (s : session) (m : positive) (cs : list stmt) : Prop :=
  ∀ n base, SClass n base ∈ cs → look s m n = Some (BClass m n).

Lemma sound_bind s K m n b : Sound s K → m ∈ K → Sound (bind_name m n b s) K.
Proof.
  intros [S1 S2 S3 S4 S5] I. pose proof (S3 m I) as Lm. split.
  - intros k L. rewrite loaded_bind in L. auto.
  - intros k p L U. rewrite loaded_bind in L. rewrite loaded_bind. eauto.
  - intros k K1. rewrite loaded_bind. auto.
  - intros k t j L N B. rewrite loaded_bind in L. destruct (S4 k t j L N B) as (A1 & A2 & A3).
    rewrite loaded_bind, look_bind by done. rewrite decide_False; [done|]. intros [-> _]. done.
  - intros k j base L N B. rewrite loaded_bind in L. rewrite look_bind by done.
    rewrite decide_False; [eauto|]. intros [-> _]. done.
Qed.

Lemma names_apart (l1 l2 : list stmt) c1 c2 : NoDup (stmt_name <$> (l1 ++ l2)) → c1 ∈ l1 → c2 ∈ l2 → stmt_name c1 ≠ stmt_name c2.
Proof.
  rewrite fmap_app, NoDup_app. intros (_ & D & _) I1 I2 E. apply (D (stmt_name c1)).
  - by apply elem_of_list_fmap_1.
  - rewrite E. by apply elem_of_list_fmap_1.
Qed.

Definition Good (imp : positive → session → option import_error * session) : Prop :=
  ∀ m s s' K, Sound s K → Unmade s K → imp m s = (None, s') → Sound s' K ∧ Later s s' ∧ loaded s' m.

Section run.
Context (imp : positive → session → option import_error * session) (HG : Good imp).

Lemma run_froms m K s0 cs done rest s s' :
  body m = done ++ cs ++ rest → Forall is_from cs → NoDup (stmt_name <$> (done ++ cs)) → m ∉ K → Sound s0 K →
  ¬ loaded s0 m → Later s0 s → Sound s (m :: K) → Unmade s (m :: K) → Bound_froms s (m :: K) m done →
  run_body P imp m cs s = (None, s') →
  Later s0 s' ∧ Sound s' (m :: K) ∧ Unmade s' (m :: K) ∧ Bound_froms s' (m :: K) m (done ++ cs).
Proof using All.
  revert done s. induction cs as [|c cs IH]; intros done s B F NF NK SO0 N0 L SO U BF R.
  { cbn in R. injection R as <-. rewrite app_nil_r. auto. }
  apply Forall_cons in F as [Fc F]. destruct c as [t n| |]; [|by destruct Fc..].
  cbn [run_body run_stmt] in R.
  destruct (imp t s) as [[e|] s1] eqn:I1; [discriminate|].
  destruct (HG t s s1 (m :: K) SO U I1) as (SO1 & L1 & T1).
  destruct (look s1 t n) as [b|] eqn:Lk; [|discriminate].
  assert (InB : SFrom t n ∈ body m) by (rewrite B; set_solver).
  destruct (o_target O m t n InB) as (KP & Npkg & base & CB).
  pose proof (unmade_later s s1 (m :: K) U L1 (so_stack _ _ SO)) as U1.
  assert (Tn : t ∉ m :: K).
  { intros X. assert (InT : t ∈ targets m) by (apply elem_of_list_omap; by exists (SFrom t n)).
    destruct (o_names O t) as [ND|[_ ND]].
    - pose proof (U1 t n base X Npkg ND CB) as Y. congruence.
    - apply elem_of_cons in X as [->|X]; [by apply (o_self O m)|].
      apply N0, (so_up _ _ SO0 t m); [by apply (so_stack _ _ SO0)|by apply ND]. }
  assert (b = BClass t n) as ->.
  { pose proof (so_class _ _ SO1 t n base T1 Tn CB). congruence. }
  pose proof (so_stack _ _ SO m ltac:(set_solver)) as Lm. pose proof (la_stay _ _ L1 m Lm) as Lm1.
  assert (App : ∀ c', c' ∈ done → stmt_name c' ≠ n).
  { intros c' I'. apply (names_apart done (SFrom t n :: cs) c' (SFrom t n) NF I'). set_solver. }
  eapply (IH (done ++ [SFrom t n]) (bind_name m n (BClass t n) s1)) in R.
  - rewrite <- app_assoc in R. exact R.
  - rewrite <- app_assoc. exact B.
  - exact F.
  - rewrite <- app_assoc. exact NF.
  - exact NK.
  - exact SO0.
  - exact N0.
  - pose proof (later_trans _ _ _ L L1) as L01. split.
    + intros k Lk'. rewrite loaded_bind. by apply (la_stay _ _ L01).
    + intros k j Lk'. rewrite look_bind by done. rewrite decide_False by (intros [-> _]; done).
      destruct (la_names _ _ L01 k j Lk') as [?|(c & r & ? & ? & ? & ?)]; [by left|right].
      exists c, r. rewrite loaded_bind. auto.
  - apply sound_bind; [done|set_solver].
  - intros k j bs Ik Pk ND Cj. rewrite look_bind by done. case_decide as D; [|by apply (U1 k j bs)].
    destruct D as [-> ->]. exfalso.
    assert (X : SClass n bs ∈ done ++ cs ++ rest ∨ SClass n bs = SFrom t n) by (rewrite B in Cj; set_solver).
    destruct X as [X|X]; [|discriminate].
    rewrite B in ND. rewrite !elem_of_app in X. destruct X as [X|X].
    + exact (App _ X eq_refl).
    + rewrite fmap_app, NoDup_app in ND. destruct ND as (_ & _ & ND). cbn in ND. apply NoDup_cons in ND as [ND _].
      apply ND. change n with (stmt_name (SClass n bs)). apply elem_of_list_fmap_1. set_solver.
  - intros t' n' I'. apply elem_of_app in I' as [I'|I'].
    + destruct (BF t' n' I') as (A1 & A2 & A3). rewrite loaded_bind, look_bind by done.
      split; [by apply (la_stay _ _ L1)|]. split; [done|].
      rewrite decide_False by (intros [_ E]; exact (App _ I' E)).
      destruct (la_names _ _ L1 m n' Lm) as [E|(c & r & Uc & Nc & Nl & _)]; [congruence|].
      exfalso. apply Nl. destruct (o_child O c m r Uc) as [Q _]. rewrite Nc in Q.
      rewrite <- (Q t'); [done|]. rewrite B. set_solver.
    + apply elem_of_list_singleton in I'. injection I' as -> ->.
      rewrite loaded_bind, look_bind by done. rewrite decide_True by done. done.
Qed.

Definition Bound_mostly (s : session) (K : list positive) (m : positive) (cs : list stmt) : Prop :=
  ∀ t n, SFrom t n ∈ cs → loaded s t ∧ t ∉ K ∧ (look s m n = Some (BClass t n) ∨ ∃ base, SClass n base ∈ body m).
Lemma run_tail m K s0 fs cs done s s' :
  body m = fs ++ done ++ cs → Forall is_from fs → Forall (λ c, ¬ is_from c) cs → NoDup (stmt_name <$> (done ++ cs)) →
  Forall (λ c, ¬ is_from c) done → m ∉ K →
  ¬ loaded s0 m → Later s0 s → Sound s (m :: K) → Bound_mostly s (m :: K) m fs → Bound_classes s m done →
  run_body P imp m cs s = (None, s') →
  Later s0 s' ∧ Sound s' (m :: K) ∧ Bound_mostly s' (m :: K) m (body m) ∧ Bound_classes s' m (body m).
Proof using All.
  revert done s. induction cs as [|c cs IH]; intros done s B Ff F NT Fd NK N0 L SO BF BC R.
  { cbn in R. injection R as <-. rewrite app_nil_r in B. rewrite B. split; [done|]. split; [done|]. split.
    - intros t n I. apply elem_of_app in I as [I|I]; [by apply BF|]. rewrite Forall_forall in Fd. by destruct (Fd _ I).
    - intros n bs I. apply elem_of_app in I as [I|I]; [|by apply (BC n bs)]. rewrite Forall_forall in Ff. by destruct (Ff _ I). }
  apply Forall_cons in F as [Fc F].
  pose proof (so_stack _ _ SO m ltac:(set_solver)) as Lm.
  assert (Go : ∃ b, run_stmt P imp m c s = (None, bind_name m (stmt_name c) b s) ∧ (∀ n bs, c = SClass n bs → b = BClass m n)
     ∧ run_body P imp m cs (bind_name m (stmt_name c) b s) = (None, s')).
  { cbn [run_body] in R. destruct c as [t n|n [b|]|n]; [exfalso; by apply Fc|..]; cbn [run_stmt] in R |- *.
    - destruct (look s m b) as [[]|]; try discriminate. eexists. split; [done|]. split; [|exact R]. intros ?? ?; congruence.
    - eexists. split; [done|]. split; [|exact R]. intros ?? ?; congruence.
    - eexists. split; [done|]. split; [|exact R]. done. }
  clear R. destruct Go as (b & _ & Hb & R).
  assert (App : ∀ c', c' ∈ done → stmt_name c' ≠ stmt_name c).
  { intros c' I'. apply (names_apart done (c :: cs) c' c NT I'). set_solver. }
  eapply (IH (done ++ [c]) (bind_name m (stmt_name c) b s)) in R.
  - exact R.
  - rewrite <- app_assoc. exact B.
  - exact Ff.
  - exact F.
  - rewrite <- app_assoc. exact NT.
  - apply Forall_app. split; [done|by apply Forall_singleton].
  - exact NK.
  - exact N0.
  - split.
    + intros k Lk'. rewrite loaded_bind. by apply (la_stay _ _ L).
    + intros k j Lk'. rewrite look_bind by done. rewrite decide_False by (intros [-> _]; done).
      destruct (la_names _ _ L k j Lk') as [?|(c' & r & ? & ? & ? & ?)]; [by left|right].
      exists c', r. rewrite loaded_bind. auto.
  - apply sound_bind; [done|set_solver].
  - intros t' n' I'. destruct (BF t' n' I') as (A1 & A2 & A3). rewrite loaded_bind, look_bind by done.
    split; [done|]. split; [done|]. case_decide as D; [|done]. destruct D as [_ ->]. right.
    destruct (o_shadow O m t' (stmt_name c)) as [bs Y].
    + rewrite B. set_solver.
    + exists c. rewrite B. split; [set_solver|done].
    + by exists bs.
  - intros n' bs I'. rewrite look_bind by done. apply elem_of_app in I' as [I'|I'].
    + rewrite decide_False; [by apply (BC n' bs)|]. intros [_ E]. exact (App _ I' E).
    + apply elem_of_list_singleton in I'. rewrite decide_True by (subst c; done). f_equal. by apply (Hb n' bs).
Qed.

Lemma run_body_app m cs1 cs2 s : run_body P imp m (cs1 ++ cs2) s =
  match run_body P imp m cs1 s with (None, s') => run_body P imp m cs2 s' | e => e end.
Proof. revert s. induction cs1 as [|c cs1 IH]; intros s; [done|]. cbn. destruct (run_stmt P imp m c s) as [[e|] s1]; [done|]. apply IH. Qed.

Lemma later_insert s m : ¬ loaded s m → Later s (<[m := []]> s).
Proof.
  intros N. split.
  - intros k L. rewrite loaded_insert. by right.
  - intros k n L. left. rewrite look_insert. rewrite decide_False; [done|]. intros ->. done.
Qed.
Lemma sound_insert s m K : Sound s K → ¬ loaded s m → is_Some (P !! m) → (∀ p, p ∈ ups P m → loaded s p) → Sound (<[m := []]> s) (m :: K).
Proof.
  intros [S1 S2 S3 S4 S5] N KP A. split.
  - intros k L. rewrite loaded_insert in L; destruct L as [->|L]; auto.
  - intros k p L I. rewrite loaded_insert. right. rewrite loaded_insert in L; destruct L as [->|L]; eauto.
  - intros k I. rewrite loaded_insert. apply elem_of_cons in I as [->|I]; auto.
  - intros k t n L NK B. apply not_elem_of_cons in NK as [N1 N2]. rewrite loaded_insert in L; destruct L as [->|L]; [done|].
    destruct (S4 k t n L N2 B) as (A1 & A2 & A3). rewrite loaded_insert, look_insert, decide_False by done.
    split; [by right|]. split; [|done]. apply not_elem_of_cons. split; [|done]. intros ->. done.
  - intros k n bs L NK B. apply not_elem_of_cons in NK as [N1 N2]. rewrite loaded_insert in L; destruct L as [->|L]; [done|].
    rewrite look_insert, decide_False by done. eauto.
Qed.
Lemma unmade_insert s m K : Unmade s K → ¬ loaded s m → Unmade (<[m := []]> s) (m :: K).
Proof.
  intros U N k n bs I Pk ND B. rewrite look_insert. case_decide as E; [done|].
  apply elem_of_cons in I as [->|I]; [done|]. by apply (U k n bs).
Qed.

Lemma load_good m s s' K : Sound s K → Unmade s K → ¬ loaded s m → (∀ p, p ∈ ups P m → loaded s p) →
  load P imp m s = (None, s') → Sound s' K ∧ Later s s' ∧ loaded s' m.
Proof using All.
  intros SO U N A R. unfold load in R. destruct (P !! m) as [M|] eqn:EM; [|discriminate].
  assert (EB : body m = m_body M) by (unfold body; by rewrite EM).
  assert (EU : ups P m = m_up M) by (unfold ups; by rewrite EM).
  assert (EN : last_name m = m_last M) by (unfold last_name; by rewrite EM).
  rewrite <- EB, <- EU, <- EN in R.
  destruct (run_body P imp m (body m) (<[m := []]> s)) as [[e|] s2] eqn:R2; [discriminate|]. injection R as <-.
  assert (NK : m ∉ K) by (intros X; by apply N, (so_stack _ _ SO)).
  destruct (o_first O m) as (fs & r & Eb & Ff & Fr & Nf & Nr). rewrite Eb, run_body_app in R2.
  destruct (run_body P imp m fs (<[m := []]> s)) as [[e|] s1] eqn:R1; [discriminate|].
  destruct (run_froms m K s fs [] r (<[m := []]> s) s1 Eb Ff Nf NK SO N (later_insert s m N)
    (sound_insert s m K SO N (mk_is_Some _ _ EM) A) (unmade_insert s m K U N)) as (L1 & SO1 & U1 & BF1); [|exact R1|].
  { intros t n I. by apply elem_of_nil in I. }
  cbn in BF1.
  destruct (run_tail m K s fs r [] s1 s2 Eb Ff Fr Nr (Forall_nil_2 _) NK N L1 SO1) as (L2 & SO2 & BF2 & BC2); [| |exact R2|].
  { intros t n I. destruct (BF1 t n I) as (? & ? & ?). auto. }
  { intros n bs I. by apply elem_of_nil in I. }
  pose proof (so_stack _ _ SO2 m ltac:(set_solver)) as Lm.
  assert (SO3 : Sound s2 K).
  { destruct SO2 as [S1 S2 S3 S4 S5]. split; [exact S1|exact S2| | |].
    - intros k I. apply S3. set_solver.
    - intros k t n L Nk B. destruct (decide (k = m)) as [->|Nm].
      + destruct (BF2 t n B) as (Q1 & Q2 & Q3). set_solver.
      + destruct (S4 k t n L ltac:(set_solver) B) as (Q1 & Q2 & Q3). set_solver.
    - intros k n bs L Nk B. destruct (decide (k = m)) as [->|Nm]; [by apply (BC2 n bs)|]. apply (S5 k n bs L); [set_solver|done]. }
  destruct (ups P m) as [|p rr] eqn:Eu; [auto|].
  destruct (o_child O m p rr Eu) as [Ch1 Ch2].
  assert (Lp : loaded s p) by (apply A; set_solver). pose proof (la_stay _ _ L2 p Lp) as Lp2.
  split; [|split].
  - destruct SO3 as [S1 S2 S3 S4 S5]. split.
    + intros k L. rewrite loaded_bind in L. auto.
    + intros k q L I. rewrite loaded_bind in L. rewrite loaded_bind. eauto.
    + intros k I. rewrite loaded_bind. auto.
    + intros k t n L Nk B. rewrite loaded_bind in L. destruct (S4 k t n L Nk B) as (Q1 & Q2 & Q3).
      rewrite loaded_bind, look_bind by done. split; [done|]. split; [done|]. rewrite decide_False; [done|].
      intros [-> ->]. pose proof (Ch1 t B) as ->.
      destruct (so_from _ _ SO2 p m (last_name m) Lp2) as (_ & X & _); [|done|set_solver].
      apply not_elem_of_cons. split; [|done]. intros ->. done.
    + intros k n bs L Nk B. rewrite loaded_bind in L. rewrite look_bind by done. rewrite decide_False; [eauto|].
      intros [-> ->]. by apply (Ch2 bs).
  - split.
    + intros k L. rewrite loaded_bind. by apply (la_stay _ _ L2).
    + intros k n L. rewrite look_bind by done. case_decide as D.
      * destruct D as [-> ->]. right. exists m, rr. rewrite loaded_bind. auto.
      * destruct (la_names _ _ L2 k n L) as [?|(c & r' & ? & ? & ? & ?)]; [by left|right].
        exists c, r'. rewrite loaded_bind. auto.
  - by rewrite loaded_bind.
Qed.
End run.

(** A module followed by the packages it is in. *)
Lemma chain_good imp (HG : Good imp) m s s' K : Sound s K → Unmade s K → load_chain P imp (m :: ups P m) s = (None, s') →
  Sound s' K ∧ Later s s' ∧ loaded s' m.
Proof using All.
  remember (ups P m) as l eqn:E. revert m E s s'. induction l as [|p r IH]; intros m E s s' SO U R.
  - cbn in R. destruct (s !! m) as [ns|] eqn:Em.
    + injection R as <-. split; [done|]. split; [apply later_refl|by exists ns].
    + eapply load_good; [exact HG|exact SO|exact U| | |exact R].
      * intros [? X]. congruence.
      * rewrite <- E. intros p I. by apply elem_of_nil in I.
  - assert (Ep : r = ups P p) by (symmetry; by destruct (o_up O m p r (eq_sym E)) as (_ & ? & _)).
    change (load_chain P imp (m :: p :: r) s) with (match s !! m with
      | Some _ => (None, s)
      | None => match load_chain P imp (p :: r) s with
         | (None, s') => match s' !! m with Some _ => (None, s') | None => load P imp m s' end
         | e => e end end) in R.
    destruct (s !! m) as [ns|] eqn:Em.
    { injection R as <-. split; [done|]. split; [apply later_refl|by exists ns]. }
    destruct (load_chain P imp (p :: r) s) as [[e|] s1] eqn:R1; [discriminate|].
    destruct (IH p Ep s s1 SO U R1) as (SO1 & L1 & Lp).
    destruct (s1 !! m) as [ns|] eqn:Em1.
    { injection R as <-. split; [done|]. split; [done|by exists ns]. }
    destruct (load_good imp HG m s1 s' K SO1 (unmade_later _ _ _ U L1 (so_stack _ _ SO))) as (A & B & C); [| |exact R|].
    + intros [? X]. congruence.
    + intros q Q. rewrite <- E, Ep in Q. apply elem_of_cons in Q as [->|Q]; [done|]. by apply (so_up _ _ SO1 p).
    + split; [done|]. split; [|done]. by apply (later_trans _ s1).
Qed.
Lemma import_good f : Good (import_module P f).
Proof using All.
  induction f as [|f IH]; intros m s s' K SO U R; [discriminate|]. cbn [import_module] in R. exact (chain_good _ IH m s s' K SO U R).
Qed.
Lemma sound_empty : Sound ∅ [].
Proof.
  assert (X : ∀ m, ¬ loaded ∅ m) by (intros m [? E]; by rewrite lookup_empty in E).
  split; [intros ? L|intros ?? L|intros ? I|intros ??? L|intros ??? L]; try (by destruct (X _ L)). by apply elem_of_nil in I.
Qed.
Lemma unmade_nil s : Unmade s [].
Proof. intros k n bs I. by apply elem_of_nil in I. Qed.
End facts.
