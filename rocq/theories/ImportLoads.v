(** When an import succeeds and when it fails, for any table of modules that is
    in order. *)
From Coq Require Import String PArith.
From stdpp Require Import prelude gmap.
From Verif Require Import PyStr PyHeap Schema Imports ImportFacts.

Lemma tail_work P imp m cs s : loaded s m → Forall (λ c, ¬ is_from c) cs →
  (∀ pre n b post, cs = pre ++ SClass n (Some b) :: post →
     (∃ t, look s m b = Some (BClass t b)) ∧ ∀ c, c ∈ pre → stmt_name c ≠ b) →
  ∃ s', run_body P imp m cs s = (None, s').
Proof.
  revert s. induction cs as [|c cs IH]; intros s Lm F H; [by exists s|]. apply Forall_cons in F as [Fc F].
  assert (Go : ∃ b, run_stmt P imp m c s = (None, bind_name m (stmt_name c) b s)).
  { destruct c as [t n|n [b|]|n]; [exfalso; by apply Fc| | |]; cbn [run_stmt stmt_name]; [|by eexists..].
    destruct (H [] n b cs eq_refl) as [[t E] _]. rewrite E. by eexists. }
  destruct Go as [b E]. cbn [run_body]. rewrite E. apply IH; [by rewrite loaded_bind|done|].
  intros pre n b' post ->. destruct (H (c :: pre) n b' post eq_refl) as [[t X] Y]. split.
  - exists t. rewrite look_bind by done. rewrite decide_False; [done|]. intros [_ Z]. apply (Y c); [by left|done].
  - intros c' I. apply Y. by right.
Qed.

Section loads.
Context (P : gmap positive module) (O : Orderly P).
Notation loaded := ImportFacts.loaded (only parsing).
Notation body := (body P).
Notation targets := (targets P).
Notation ups := (ups P).

(** [C k] covers what is loaded while [k] is executed; [V k] what can be imported
    although the guard of [k] is not loaded. *)
Record Clear (C V : positive → positive → Prop) (G : list (positive * positive)) : Prop := {
  c_start : ∀ k t, is_pkg P k = false → t ∈ targets k → C k t ∨ t ∈ ups k ∨ (k, t) ∈ G;
  c_up : ∀ k y z, C k y → z ∈ ups y → C k z ∨ z ∈ ups k ∨ (k, z) ∈ G;
  c_next : ∀ k y z, C k y → z ∈ targets y → C k z ∨ z ∈ ups k ∨ (k, z) ∈ G;
  c_apart : ∀ k y, is_pkg P k = false → C k y → k ∉ targets y;
  c_self : ∀ k, k ∉ targets k;
  v_start : ∀ k w, (k, w) ∈ G → ¬ V k k;
  v_up : ∀ k w y z, (k, w) ∈ G → V k y → z ∈ ups y → V k z;
  v_next : ∀ k w y t, (k, w) ∈ G → V k y → y ≠ w → w ∉ ups y → t ∈ targets y → V k t }.

Context (C V : positive → positive → Prop) (G : list (positive * positive)) (HC : Clear C V G).

Definition Fit (s : session) (K : list positive) (m : positive) : Prop :=
  is_Some (P !! m) ∧ (∀ k, k ∈ K → is_pkg P k = false → loaded s m ∨ C k m) ∧ ∀ k w, (k, w) ∈ G → loaded s w ∨ V k m.
Definition Guarded (s : session) (K : list positive) : Prop := ∀ k w, k ∈ K → (k, w) ∈ G → loaded s w.

Lemma fit_later s s' K m : Fit s K m → Later P s s' → Fit s' K m.
Proof.
  intros (A & B & D) L. split; [done|]. split.
  - intros k I Pk. destruct (B k I Pk); [left; by apply (la_stay _ _ _ L)|by right].
  - intros k w I. destruct (D k w I); [left; by apply (la_stay _ _ _ L)|by right].
Qed.
Lemma guarded_later s s' K : Guarded s K → Later P s s' → Guarded s' K.
Proof. intros A L k w I J. apply (la_stay _ _ _ L). by apply (A k w). Qed.
Lemma fit_up s K m p : Sound P s K → Guarded s K → Fit s K m → ¬ loaded s m → p ∈ ups m → Fit s K p.
Proof using All.
  intros SO GK (A & B & D) N I. split; [by destruct (ups_pkg P O m p I) as (_ & ? & _)|]. split.
  - intros k Ik Pk. destruct (B k Ik Pk) as [X|X]; [done|].
    destruct (c_up _ _ _ HC k m p X I) as [Y|[Y|Y]]; [by right|left|left].
    + apply (so_up _ _ _ SO k p); [by apply (so_stack _ _ _ SO)|done].
    + by apply (GK k p).
  - intros k w J. destruct (D k w J) as [X|X]; [by left|right]. by apply (v_up _ _ _ HC k w m).
Qed.

Lemma size_later s s' : (∀ m, loaded s m → loaded s' m) → size s ≤ size s'.
Proof.
  intros A. rewrite <- !size_dom. apply subseteq_size. intros m I. apply elem_of_dom in I. apply elem_of_dom. by apply A.
Qed.
Lemma size_insert_new s m ns : ¬ loaded s m → size (<[m := ns]> s) = S (size s).
Proof. intros N. apply map_size_insert_None. apply eq_None_not_Some. exact N. Qed.

Definition Works (f : nat) (imp : positive → session → option import_error * session) : Prop :=
  ∀ m s K, Sound P s K → Unmade P s K → Fit s K m → Guarded s K → size P < f + size s → ∃ s', imp m s = (None, s').

Lemma targets_in m t : t ∈ targets m ↔ ∃ n, SFrom t n ∈ body m.
Proof.
  unfold ImportFacts.targets. rewrite elem_of_list_omap. split.
  - intros (c & I & E). destruct c as [t' n| |]; try discriminate. injection E as ->. by exists n.
  - intros (n & I). by exists (SFrom t n).
Qed.

Section run.
Context (f : nat) (imp : positive → session → option import_error * session) (HW : Works f imp) (HG : Good P imp).

Lemma froms_work m K s0 cs done rest s :
  body m = done ++ cs ++ rest → Forall is_from cs → NoDup (stmt_name <$> (done ++ cs)) → m ∉ K → Sound P s0 K → is_Some (P !! m) →
  ¬ loaded s0 m → Later P s0 s → Sound P s (m :: K) → Unmade P s (m :: K) → Bound_froms s (m :: K) m done →
  Fit s0 K m → Guarded s (m :: K) → size P < f + size s →
  ∃ s', run_body P imp m cs s = (None, s') ∧ Later P s0 s' ∧ Sound P s' (m :: K) ∧ Bound_froms s' (m :: K) m (done ++ cs).
Proof using All.
  revert done s. induction cs as [|c cs IH]; intros done s B F NF NK SO0 KM N0 L SO U BF FT GK SZ.
  { exists s. rewrite app_nil_r. auto. }
  apply Forall_cons in F as [Fc F]. destruct c as [t n| |]; [|by destruct Fc..].
  assert (InB : SFrom t n ∈ body m) by (rewrite B; set_solver).
  assert (InT : t ∈ targets m) by (apply targets_in; eauto).
  destruct (o_target P O m t n InB) as (KP & Npkg & base & CB).
  pose proof (so_stack _ _ _ SO m ltac:(set_solver)) as Lm.
  assert (FTt : Fit s (m :: K) t).
  { destruct FT as (_ & FK & FG). split; [done|]. split.
    - intros k Ik Pk. assert (D : C k t ∨ t ∈ ups k ∨ (k, t) ∈ G).
      { apply elem_of_cons in Ik as [->|Ik]; [by apply (c_start _ _ _ HC)|].
        destruct (FK k Ik Pk) as [X|X]; [done|]. by apply (c_next _ _ _ HC k m). }
      destruct D as [D|[D|D]]; [by right|left|left].
      + apply (so_up _ _ _ SO k t); [by apply (so_stack _ _ _ SO)|done].
      + by apply (GK k t).
    - intros k w J. destruct (FG k w J) as [X|X]; [left; by apply (la_stay _ _ _ L)|].
      destruct (decide (m = w)) as [<-|Nw]; [by left|].
      destruct (decide (w ∈ ups m)) as [Iw|Nu]; [left; by apply (so_up _ _ _ SO m w)|].
      right. by apply (v_next _ _ _ HC k w m). }
  destruct (HW t s (m :: K) SO U FTt GK SZ) as (s1 & I1).
  destruct (HG t s s1 (m :: K) SO U I1) as (SO1 & L1 & T1).
  assert (Tn : t ∉ m :: K).
  { intros X. apply elem_of_cons in X as [->|X]; [by apply (c_self _ _ _ HC m)|].
    destruct FT as (_ & FK & _). destruct (FK t X Npkg) as [Y|Y]; [done|]. by apply (c_apart _ _ _ HC t m Npkg Y). }
  pose proof (so_class _ _ _ SO1 t n base T1 Tn CB) as Lk.
  set (s2 := bind_name m n (BClass t n) s1).
  assert (R1 : run_body P imp m [SFrom t n] s = (None, s2)).
  { cbn [run_body run_stmt]. rewrite I1, Lk. done. }
  destruct (run_froms P O imp HG m K s0 [SFrom t n] done (cs ++ rest) s s2) as (L2 & SO2 & U2 & BF2);
    [exact B|by apply Forall_singleton| |done|done|done|done|done|done|done|exact R1|].
  { change (SFrom t n :: cs) with ([SFrom t n] ++ cs) in NF. rewrite app_assoc, fmap_app in NF. by apply NoDup_app in NF as [? _]. }
  destruct (IH (done ++ [SFrom t n]) s2) as (s' & R & Q); try done.
  - rewrite <- app_assoc. exact B.
  - rewrite <- app_assoc. exact NF.
  - intros k w I J. unfold s2. rewrite loaded_bind. apply (la_stay _ _ _ L1). by apply (GK k w).
  - assert (size s ≤ size s2); [|lia]. apply size_later. intros k X. unfold s2. rewrite loaded_bind. by apply (la_stay _ _ _ L1).
  - exists s'. rewrite <- app_assoc in Q. split; [|exact Q]. cbn [run_body] in R1 |- *.
    destruct (run_stmt P imp m (SFrom t n) s) as [[e|] s3]; [discriminate|]. injection R1 as ->. exact R.
Qed.

Lemma load_works m s K : Sound P s K → Unmade P s K → ¬ loaded s m → (∀ p, p ∈ ups m → loaded s p) →
  Fit s K m → Guarded s K → size P < S f + size s → ∃ s', load P imp m s = (None, s').
Proof using All.
  intros SO U N A FT GK SZ. pose proof FT as ([M EM] & FK & FG). unfold load. rewrite EM.
  assert (EB : body m = m_body M) by (unfold ImportFacts.body; by rewrite EM). rewrite <- EB.
  assert (NK : m ∉ K) by (intros X; by apply N, (so_stack _ _ _ SO)).
  destruct (o_first P O m) as (fs & r & Eb & Ff & Fr & Nf & Nr).
  assert (GK' : Guarded (<[m := []]> s) (m :: K)).
  { intros k w I J. rewrite loaded_insert. right. apply elem_of_cons in I as [->|I]; [|by apply (GK k w)].
    destruct (FG m w J) as [X|X]; [done|]. by destruct (v_start _ _ _ HC m w J). }
  destruct (froms_work m K s fs [] r (<[m := []]> s)) as (s1 & R1 & L1 & SO1 & BF1);
    [exact Eb|done|done|done|done|by exists M|done|by apply later_insert|apply sound_insert; [done|done|by exists M|done]
    |by apply unmade_insert| |done|done| |].
  { intros t n I. by apply elem_of_nil in I. }
  { rewrite size_insert_new by done. lia. }
  cbn in BF1.
  destruct (tail_work P imp m r s1) as (s2 & R2).
  - apply (so_stack _ _ _ SO1). set_solver.
  - done.
  - intros pre n b post Er. destruct (o_base P O m (fs ++ pre) n b post) as [[t T] Y]; [by rewrite Eb, Er, app_assoc|].
    assert (T' : SFrom t b ∈ fs).
    { apply elem_of_app in T as [T|T]; [done|]. rewrite Forall_forall in Fr. destruct (Fr (SFrom t b)); [|done]. rewrite Er. set_solver. }
    split; [exists t; by destruct (BF1 t b T') as (_ & _ & ?)|].
    intros c I. apply Y; [set_solver|]. rewrite Forall_forall in Fr. apply Fr. rewrite Er. set_solver.
  - rewrite Eb, run_body_app, R1, R2. by eexists.
Qed.

Lemma chain_works m s K : Sound P s K → Unmade P s K → Fit s K m → Guarded s K → size P < S f + size s →
  ∃ s', load_chain P imp (m :: ups m) s = (None, s').
Proof using All.
  remember (ups m) as l eqn:E. revert m E s. induction l as [|p r IH]; intros m E s SO U FT GK SZ.
  - cbn. destruct (s !! m) as [ns|] eqn:Em; [by eexists|]. apply (load_works m s K); try done.
    + intros [? X]. congruence.
    + rewrite <- E. intros p I. by apply elem_of_nil in I.
  - assert (Ep : r = ups p) by (symmetry; by destruct (o_up P O m p r (eq_sym E)) as (_ & ? & _)).
    change (load_chain P imp (m :: p :: r) s) with (match s !! m with
      | Some _ => (None, s)
      | None => match load_chain P imp (p :: r) s with
         | (None, s') => match s' !! m with Some _ => (None, s') | None => load P imp m s' end
         | e => e end end).
    destruct (s !! m) as [ns|] eqn:Em; [by eexists|].
    assert (N : ¬ loaded s m) by (intros [? X]; congruence).
    destruct (IH p Ep s SO U) as (s1 & R1); [|done|done|].
    { apply (fit_up s K m p); try done. rewrite <- E. set_solver. }
    rewrite R1. rewrite Ep in R1. destruct (chain_good P O imp HG p s s1 K SO U R1) as (SO1 & L1 & Lp).
    destruct (s1 !! m) as [ns|] eqn:Em1; [by eexists|]. apply (load_works m s1 K); try done.
    + apply (unmade_later P O s); [done|done|apply (so_stack _ _ _ SO)].
    + intros [? X]. congruence.
    + intros q Q. rewrite <- E, Ep in Q. apply elem_of_cons in Q as [->|Q]; [done|]. by apply (so_up _ _ _ SO1 p).
    + by apply (fit_later s).
    + by apply (guarded_later s).
    + pose proof (size_later s s1 (la_stay _ _ _ L1)). lia.
Qed.
End run.

Lemma import_works f : Works f (import_module P f).
Proof using All.
  induction f as [|f IH]; intros m s K SO U FT GK SZ.
  - exfalso. assert (size s ≤ size P); [|lia]. rewrite <- !size_dom. apply subseteq_size. intros k I.
    apply elem_of_dom in I. apply elem_of_dom. by apply (so_known _ _ _ SO).
  - cbn [import_module]. by apply (chain_works f _ IH (import_good P O f) m s K).
Qed.
End loads.

(** What can be loaded at most. *)
Section within.
Context (P : gmap positive module) (X : positive → Prop) (sb : session).
Context (HX : ∀ y z, X y → z ∈ ups P y ∨ z ∈ targets P y → X z ∨ loaded sb z).
Definition Within (s : session) : Prop := (∀ y, loaded sb y → loaded s y) ∧ ∀ y, loaded s y → loaded sb y ∨ X y.
Definition Keeps_within (imp : positive → session → option import_error * session) : Prop :=
  ∀ m s s', X m ∨ loaded sb m → Within s → imp m s = (None, s') → Within s'.

Lemma within_bind m n b s : Within s → Within (bind_name m n b s).
Proof. intros [A B]. split; intros y L; [rewrite loaded_bind; auto|rewrite loaded_bind in L; auto]. Qed.
Lemma body_within imp m cs s s' : Keeps_within imp → (∀ t n, SFrom t n ∈ cs → X t ∨ loaded sb t) → Within s →
  run_body P imp m cs s = (None, s') → Within s'.
Proof.
  intros HI. revert s. induction cs as [|c cs IH]; intros s HT W R; [cbn in R; by injection R as <-|].
  cbn [run_body] in R. destruct (run_stmt P imp m c s) as [[e|] s1] eqn:R1; [discriminate|].
  apply (IH s1); [|clear R|exact R]. { intros t n I. apply (HT t n). by right. }
  destruct c as [t n|n [b|]|n]; cbn [run_stmt] in R1.
  - destruct (imp t s) as [[e|] s2] eqn:I1; [discriminate|]. apply HI in I1; [|apply (HT t n); by left|done].
    destruct (look s2 t n); [|discriminate]. injection R1 as <-. by apply within_bind.
  - destruct (look s m b) as [[]|]; try discriminate. injection R1 as <-. by apply within_bind.
  - injection R1 as <-. by apply within_bind.
  - injection R1 as <-. by apply within_bind.
Qed.
Lemma load_within imp m s s' : Keeps_within imp → X m → Within s → load P imp m s = (None, s') → Within s'.
Proof using HX.
  intros HI Xm W R. unfold load in R. destruct (P !! m) as [M|] eqn:EM; [|discriminate].
  destruct (run_body P imp m (m_body M) (<[m := []]> s)) as [[e|] s2] eqn:R2; [discriminate|]. injection R as <-.
  apply body_within in R2; [|done| |].
  - destruct (m_up M); [done|]. by apply within_bind.
  - intros t n I. apply (HX m t Xm). right. unfold targets, body. rewrite EM. apply elem_of_list_omap. by exists (SFrom t n).
  - destruct W as [A B]. split; intros y L; rewrite loaded_insert in *; [right; auto|]. destruct L as [->|L]; auto.
Qed.
Lemma chain_within imp ms s s' : Keeps_within imp → (∀ m, m ∈ ms → X m ∨ loaded sb m) → Within s →
  load_chain P imp ms s = (None, s') → Within s'.
Proof using HX.
  intros HI. revert s'. induction ms as [|m r IH]; intros s' A W R; cbn [load_chain] in R; [by injection R as <-|].
  destruct (s !! m) as [ns|] eqn:Em; [by injection R as <-|].
  destruct (load_chain P imp r s) as [[e|] s1] eqn:R1; [discriminate|].
  assert (W1 : Within s1) by (apply IH; [intros k I; apply A; by right|done|done]).
  destruct (s1 !! m) as [ns|] eqn:E1; [by injection R as <-|].
  destruct (A m ltac:(by left)) as [Xm|Lm]; [by apply load_within in R|].
  exfalso. destruct W as [W _]. destruct (W m Lm) as [? ?]. congruence.
Qed.
Lemma import_within f : Keeps_within (import_module P f).
Proof using HX.
  induction f as [|f IH]; intros m s s' Xm W R; [discriminate|]. cbn [import_module] in R.
  destruct Xm as [Xm|Lm].
  - apply (chain_within _ (m :: ups P m) s s' IH); [|done|done].
    intros k I. apply elem_of_cons in I as [->|I]; [by left|]. apply (HX m k Xm). by left.
  - destruct W as [A B]. destruct (A m Lm) as [ns E]. cbn [load_chain] in R. rewrite E in R. by injection R as <-.
Qed.
End within.

(** A package [D] one of whose modules, [R], cannot be imported first: its base is
    in a package [W] that has a module which needs [R]. *)
Section fails.
Context (P : gmap positive module) (O : Orderly P).
Record Knot (D R W B Sy : positive) (nR nB nS nR' : name) (pre post rest : list stmt) (X1 X2 : positive → Prop) : Prop := {
  kn_body : body P D = pre ++ SFrom R nR :: post;
  kn_pre : Forall is_from pre;
  kn_names : NoDup (stmt_name <$> pre);
  kn_up : ∃ r, ups P R = D :: r;
  kn_base : body P R = SFrom B nB :: rest;
  kn_in : W ∈ ups P B;
  kn_needs : SFrom Sy nS ∈ body P W;
  kn_back : SFrom R nR' ∈ body P Sy;
  kn_apart : W ∉ [R; D] ∧ Sy ∉ [R; D] ∧ R ≠ D;
  kn_ups : ∀ z, z ∈ ups P D → X1 z;
  kn_next1 : ∀ y z, X1 y → z ∈ ups P y ∨ z ∈ targets P y → X1 z;
  kn_away1 : ¬ X1 D ∧ ¬ X1 R;
  kn_start : ∀ t n, SFrom t n ∈ pre → X2 t;
  kn_next2 : ∀ y z, X2 y → z ∈ ups P y ∨ z ∈ targets P y → X2 z ∨ z = D ∨ z ∈ ups P D;
  kn_away2 : ¬ X2 R }.
Context (D R W B Sy : positive) (nR nB nS nR' : name) (pre post rest : list stmt) (X1 X2 : positive → Prop).
Context (KN : Knot D R W B Sy nR nB nS nR' pre post rest X1 X2).

Lemma knot_base f s K s' : Sound P s K → Unmade P s K → R ∈ K → W ∉ K → Sy ∉ K → import_module P f B s ≠ (None, s').
Proof using All.
  intros SO U IR NW NS E. destruct (import_good P O f B s s' K SO U E) as (SO' & _ & LB).
  pose proof (so_up _ _ _ SO' B W LB (kn_in _ _ _ _ _ _ _ _ _ _ _ _ _ _ KN)) as LW.
  destruct (so_from _ _ _ SO' W Sy nS LW NW (kn_needs _ _ _ _ _ _ _ _ _ _ _ _ _ _ KN)) as (LS & _ & _).
  destruct (so_from _ _ _ SO' Sy R nR' LS NS (kn_back _ _ _ _ _ _ _ _ _ _ _ _ _ _ KN)) as (_ & X & _). done.
Qed.
Lemma knot_R f s K s' : Sound P s K → Unmade P s K → ¬ loaded s R → D ∈ K → W ∉ R :: K → Sy ∉ R :: K →
  import_module P f R s ≠ (None, s').
Proof using All.
  intros SO U NR ID NW NS E. destruct f as [|f]; [discriminate|]. cbn [import_module] in E.
  destruct (kn_up _ _ _ _ _ _ _ _ _ _ _ _ _ _ KN) as [r Er]. rewrite Er in E. cbn [load_chain] in E.
  pose proof (so_stack _ _ _ SO D ID) as LD.
  assert (ER : s !! R = None) by (by apply eq_None_not_Some). rewrite ER in E.
  destruct LD as [ns ED]. rewrite ED, ER in E. unfold load in E.
  pose proof (kn_base _ _ _ _ _ _ _ _ _ _ _ _ _ _ KN) as EB. unfold body in EB.
  destruct (P !! R) as [M|] eqn:EM; [|discriminate]. rewrite EB in E. cbn [run_body run_stmt] in E.
  destruct (import_module P f B (<[R:=[]]> s)) as [[e|] s1] eqn:I1; [discriminate|].
  assert (AU : ∀ p, p ∈ ups P R → loaded s p).
  { destruct (o_up P O R D r Er) as (_ & E' & _). rewrite Er. intros p I. apply elem_of_cons in I as [->|I]; [by exists ns|].
    apply (so_up _ _ _ SO D p); [by exists ns|]. by rewrite E'. }
  exact (knot_base f _ (R :: K) s1 (sound_insert P s R K SO NR (mk_is_Some _ _ EM) AU) (unmade_insert P s R K U NR)
    ltac:(by left) NW NS I1).
Qed.
Lemma knot_D f s s' : Sound P s [] → ¬ loaded s R → ¬ loaded s D → load_chain P (import_module P f) (D :: ups P D) s ≠ (None, s').
Proof using All.
  intros SO NR ND E. cbn [load_chain] in E.
  assert (ED : s !! D = None) by (by apply eq_None_not_Some). rewrite ED in E.
  destruct (load_chain P (import_module P f) (ups P D) s) as [[e|] s1] eqn:R1; [discriminate|].
  destruct (kn_away1 _ _ _ _ _ _ _ _ _ _ _ _ _ _ KN) as [XD XR].
  destruct (kn_apart _ _ _ _ _ _ _ _ _ _ _ _ _ _ KN) as (NW & NS & RD).
  assert (W1 : Within X1 s s1).
  { apply (chain_within P X1 s) with (imp := import_module P f) (ms := ups P D) (s := s).
    - intros y z Y Z. left. by apply (kn_next1 _ _ _ _ _ _ _ _ _ _ _ _ _ _ KN y z).
    - apply import_within. intros y z Y Z. left. by apply (kn_next1 _ _ _ _ _ _ _ _ _ _ _ _ _ _ KN y z).
    - intros m I. left. by apply (kn_ups _ _ _ _ _ _ _ _ _ _ _ _ _ _ KN).
    - split; auto.
    - done. }
  assert (ND1 : ¬ loaded s1 D) by (intros Y; destruct W1 as [_ W1]; destruct (W1 D Y); done).
  assert (NR1 : ¬ loaded s1 R) by (intros Y; destruct W1 as [_ W1]; destruct (W1 R Y); done).
  assert (SO1 : Sound P s1 [] ∧ ∀ p, p ∈ ups P D → loaded s1 p).
  { destruct (ups P D) as [|p r] eqn:EU.
    - cbn in R1. injection R1 as <-. split; [done|]. intros p I. by apply elem_of_nil in I.
    - destruct (o_up P O D p r EU) as (_ & E' & _). rewrite <- E' in R1.
      destruct (chain_good P O _ (import_good P O f) p s s1 [] SO (unmade_nil P s) R1) as (A1 & _ & A2).
      split; [done|]. intros q I. apply elem_of_cons in I as [->|I]; [done|]. apply (so_up _ _ _ A1 p q A2). by rewrite E'. }
  destruct SO1 as [SO1 AU].
  assert (ED1 : s1 !! D = None) by (by apply eq_None_not_Some). rewrite ED1 in E. unfold load in E.
  pose proof (kn_body _ _ _ _ _ _ _ _ _ _ _ _ _ _ KN) as EB. pose proof EB as EB'. unfold body in EB'.
  destruct (P !! D) as [M|] eqn:EM; [|discriminate]. rewrite EB', run_body_app in E.
  destruct (run_body P (import_module P f) D pre (<[D:=[]]> s1)) as [[e|] s2] eqn:R2; [discriminate|].
  destruct (run_froms P O _ (import_good P O f) D [] s1 pre [] (SFrom R nR :: post) (<[D := []]> s1) s2)
    as (L2 & SO2 & U2 & _);
    [exact EB|exact (kn_pre _ _ _ _ _ _ _ _ _ _ _ _ _ _ KN)|exact (kn_names _ _ _ _ _ _ _ _ _ _ _ _ _ _ KN)|apply not_elem_of_nil|done|done|by apply later_insert
    |apply sound_insert; [done|done|by exists M|done]|apply unmade_insert; [apply unmade_nil|done]| |exact R2|].
  { intros t n I. by apply elem_of_nil in I. }
  assert (HX : ∀ y z, X2 y → z ∈ ups P y ∨ z ∈ targets P y → X2 z ∨ loaded (<[D := []]> s1) z).
  { intros y z Y Z. destruct (kn_next2 _ _ _ _ _ _ _ _ _ _ _ _ _ _ KN y z Y Z) as [Q|[->|Q]]; [by left|right..].
    - rewrite loaded_insert. by left.
    - rewrite loaded_insert. right. by apply AU. }
  assert (W2 : Within X2 (<[D := []]> s1) s2).
  { apply (body_within P X2 _ (import_module P f) D pre (<[D := []]> s1)); [by apply import_within| |split; auto|done].
    intros t n I. left. by apply (kn_start _ _ _ _ _ _ _ _ _ _ _ _ _ _ KN t n). }
  assert (NR2 : ¬ loaded s2 R).
  { intros Y. destruct W2 as [_ W2]. destruct (W2 R Y) as [Q|Q]; [|by apply (kn_away2 _ _ _ _ _ _ _ _ _ _ _ _ _ _ KN)].
    rewrite loaded_insert in Q. by destruct Q. }
  cbn [run_body run_stmt] in E.
  destruct (import_module P f R s2) as [[e|] s3] eqn:I3; [discriminate|].
  by apply (knot_R f s2 [D] s3 SO2 U2 NR2) in I3; [|left| |].
Qed.
Lemma chain_to imp m s s' : Sound P s [] → D ∈ m :: ups P m → ¬ loaded s D →
  load_chain P imp (m :: ups P m) s = (None, s') → ∃ s1, load_chain P imp (D :: ups P D) s = (None, s1).
Proof using All.
  intros SO. remember (ups P m) as l eqn:E. revert m E s'. induction l as [|p r IH]; intros m E s' I N R0.
  - apply elem_of_list_singleton in I. subst m. rewrite <- E. eauto.
  - destruct (decide (D = m)) as [->|Nm]; [rewrite <- E; eauto|]. apply elem_of_cons in I as [?|I]; [done|].
    assert (Ep : r = ups P p) by (symmetry; by destruct (o_up P O m p r (eq_sym E)) as (_ & ? & _)).
    change (load_chain P imp (m :: p :: r) s) with (match s !! m with
      | Some _ => (None, s)
      | None => match load_chain P imp (p :: r) s with
         | (None, s') => match s' !! m with Some _ => (None, s') | None => load P imp m s' end
         | e => e end end) in R0.
    destruct (s !! m) as [ns|] eqn:Em.
    { destruct N. apply (so_up _ _ _ SO m D); [by exists ns|]. by rewrite <- E. }
    destruct (load_chain P imp (p :: r) s) as [[e|] s1] eqn:R1; [discriminate|].
    by apply (IH p Ep s1).
Qed.
Lemma knot_import f m s s' : Sound P s [] → ¬ loaded s W → D ∈ m :: ups P m → import_module P f m s ≠ (None, s').
Proof using All.
  intros SO NW I E. destruct f as [|f]; [discriminate|]. cbn [import_module] in E.
  assert (NR : ¬ loaded s R).
  { intros L. destruct (so_from _ _ _ SO R B nB L) as (LB & _ & _); [apply not_elem_of_nil| |].
    - rewrite (kn_base _ _ _ _ _ _ _ _ _ _ _ _ _ _ KN). by left.
    - apply NW. by apply (so_up _ _ _ SO B W LB (kn_in _ _ _ _ _ _ _ _ _ _ _ _ _ _ KN)). }
  assert (ND : ¬ loaded s D).
  { intros L. destruct (so_from _ _ _ SO D R nR L) as (LB & _ & _); [apply not_elem_of_nil| |done].
    rewrite (kn_body _ _ _ _ _ _ _ _ _ _ _ _ _ _ KN). set_solver. }
  apply (chain_to _ m s s' SO I ND) in E as [s1 E]. by apply knot_D in E.
Qed.
End fails.

(** The only error there can be is that a name cannot be imported. *)
Section errors.
Context (P : gmap positive module) (O : Orderly P).
Definition Only_import_error (f : nat) (imp : positive → session → option import_error * session) : Prop :=
  ∀ m s K e s', Sound P s K → Unmade P s K → is_Some (P !! m) → size P < f + size s → imp m s = (Some e, s') → e = ImportError.

Section run.
Context (f : nat) (imp : positive → session → option import_error * session) (HE : Only_import_error f imp) (HG : Good P imp).
Lemma froms_error m K s0 cs done rest s e s' :
  body P m = done ++ cs ++ rest → Forall is_from cs → NoDup (stmt_name <$> (done ++ cs)) → m ∉ K → Sound P s0 K →
  ¬ loaded s0 m → Later P s0 s → Sound P s (m :: K) → Unmade P s (m :: K) → Bound_froms s (m :: K) m done →
  size P < f + size s → run_body P imp m cs s = (Some e, s') → e = ImportError.
Proof using All.
  revert done s. induction cs as [|c cs IH]; intros done s B F NF NK SO0 N0 L SO U BF SZ R; [discriminate|].
  apply Forall_cons in F as [Fc F]. destruct c as [t n| |]; [|by destruct Fc..].
  assert (InB : SFrom t n ∈ body P m) by (rewrite B; set_solver).
  destruct (o_target P O m t n InB) as (KP & Npkg & base & CB).
  cbn [run_body] in R. destruct (run_stmt P imp m (SFrom t n) s) as [[e1|] s2] eqn:R1.
  - injection R as -> ->. cbn [run_stmt] in R1.
    destruct (imp t s) as [[e2|] s3] eqn:I1.
    + injection R1 as -> ->. by apply (HE t s (m :: K) e s').
    + destruct (look s3 t n); [discriminate|]. rewrite Npkg in R1. by injection R1 as <- _.
  - assert (R2 : run_body P imp m [SFrom t n] s = (None, s2)) by (cbn [run_body]; by rewrite R1).
    destruct (run_froms P O imp HG m K s0 [SFrom t n] done (cs ++ rest) s s2) as (L2 & SO2 & U2 & BF2);
      [exact B|by apply Forall_singleton| |done|done|done|done|done|done|done|exact R2|].
    { change (SFrom t n :: cs) with ([SFrom t n] ++ cs) in NF. rewrite app_assoc, fmap_app in NF. by apply NoDup_app in NF as [? _]. }
    apply (IH (done ++ [SFrom t n]) s2); try done.
    + rewrite <- app_assoc. exact B.
    + rewrite <- app_assoc. exact NF.
    + assert (size s ≤ size s2); [|lia]. cbn [run_stmt] in R1. destruct (imp t s) as [[e2|] s3] eqn:I1; [discriminate|].
      destruct (HG t s s3 (m :: K) SO U I1) as (_ & L3 & _). destruct (look s3 t n); [|discriminate]. injection R1 as <-.
      apply size_later. intros k X. rewrite loaded_bind. by apply (la_stay _ _ _ L3).
Qed.
Lemma load_error m s K e s' : Sound P s K → Unmade P s K → ¬ loaded s m → (∀ p, p ∈ ups P m → loaded s p) → is_Some (P !! m) →
  size P < S f + size s → load P imp m s = (Some e, s') → e = ImportError.
Proof using All.
  intros SO U N A [M EM] SZ R. unfold load in R. rewrite EM in R.
  assert (EB : body P m = m_body M) by (unfold ImportFacts.body; by rewrite EM). rewrite <- EB in R.
  assert (NK : m ∉ K) by (intros X; by apply N, (so_stack _ _ _ SO)).
  destruct (run_body P imp m (body P m) (<[m := []]> s)) as [[e1|] s2] eqn:R2; [|discriminate]. injection R as -> _.
  destruct (o_first P O m) as (fs & r & Eb & Ff & Fr & Nf & Nr). rewrite Eb, run_body_app in R2.
  assert (SI : Sound P (<[m := []]> s) (m :: K)) by (apply sound_insert; [done|done|by exists M|done]).
  assert (UI : Unmade P (<[m := []]> s) (m :: K)) by (by apply unmade_insert).
  assert (BI : Bound_froms (<[m := []]> s) (m :: K) m []) by (intros t n I; by apply elem_of_nil in I).
  destruct (run_body P imp m fs (<[m := []]> s)) as [[e1|] s1] eqn:R1.
  - injection R2 as -> _. eapply (froms_error m K s fs [] r (<[m := []]> s) e s1); try done.
    + by apply later_insert.
    + rewrite size_insert_new by done. lia.
  - exfalso. destruct (run_froms P O imp HG m K s fs [] r (<[m := []]> s) s1) as (L1 & SO1 & U1 & BF1); try done.
    { by apply later_insert. }
    cbn in BF1.
    destruct (tail_work P imp m r s1) as (s3 & R3).
    + apply (so_stack _ _ _ SO1). set_solver.
    + done.
    + intros pre n b post Er. destruct (o_base P O m (fs ++ pre) n b post) as [[t T] Y]; [by rewrite Eb, Er, app_assoc|].
      assert (T' : SFrom t b ∈ fs).
      { apply elem_of_app in T as [T|T]; [done|]. rewrite Forall_forall in Fr. destruct (Fr (SFrom t b)); [|done]. rewrite Er. set_solver. }
      split; [exists t; by destruct (BF1 t b T') as (_ & _ & ?)|].
      intros c I. apply Y; [set_solver|]. rewrite Forall_forall in Fr. apply Fr. rewrite Er. set_solver.
    + congruence.
Qed.
Lemma chain_error m s K e s' : Sound P s K → Unmade P s K → is_Some (P !! m) → size P < S f + size s →
  load_chain P imp (m :: ups P m) s = (Some e, s') → e = ImportError.
Proof using All.
  remember (ups P m) as l eqn:E. revert m E s'. induction l as [|p r IH]; intros m E s' SO U KM SZ R.
  - cbn in R. destruct (s !! m) as [ns|] eqn:Em; [discriminate|]. apply (load_error m s K e s'); try done.
    + intros [? X]. congruence.
    + rewrite <- E. intros p I. by apply elem_of_nil in I.
  - destruct (o_up P O m p r (eq_sym E)) as (Kp & Ep & _).
    change (load_chain P imp (m :: p :: r) s) with (match s !! m with
      | Some _ => (None, s)
      | None => match load_chain P imp (p :: r) s with
         | (None, s') => match s' !! m with Some _ => (None, s') | None => load P imp m s' end
         | e => e end end) in R.
    destruct (s !! m) as [ns|] eqn:Em; [discriminate|].
    destruct (load_chain P imp (p :: r) s) as [[e1|] s1] eqn:R1.
    { injection R as -> ->. by apply (IH p (eq_sym Ep) s'). }
    rewrite <- Ep in R1. destruct (chain_good P O imp HG p s s1 K SO U R1) as (SO1 & L1 & Lp).
    destruct (s1 !! m) as [ns|] eqn:Em1; [discriminate|]. apply (load_error m s1 K e s'); try done.
    + apply (unmade_later P O s); [done|done|apply (so_stack _ _ _ SO)].
    + intros [? X]. congruence.
    + intros q Q. rewrite <- E in Q. apply elem_of_cons in Q as [->|Q]; [done|]. apply (so_up _ _ _ SO1 p); [done|]. by rewrite Ep.
    + pose proof (size_later s s1 (la_stay _ _ _ L1)). lia.
Qed.
End run.
Lemma import_error_only f : Only_import_error f (import_module P f).
Proof using All.
  induction f as [|f IH]; intros m s K e s' SO U KM SZ R.
  - exfalso. assert (size s ≤ size P); [|lia]. rewrite <- !size_dom. apply subseteq_size. intros k I.
    apply elem_of_dom in I. apply elem_of_dom. by apply (so_known _ _ _ SO).
  - cbn [import_module] in R. by apply (chain_error f _ IH (import_good P O f) m s K e s').
Qed.
End errors.
