(** Checks of the table of modules, by computation over every row. *)
From Coq Require Import String PArith.
From stdpp Require Import prelude gmap.
From Verif Require Import PyStr PyHeap Schema Names Imports TabImports ImportRanks ImportFacts ImportLoads ImportSpec.

Section checks.
Context (P : gmap positive module).
Definition from_b (c : stmt) : bool := match c with SFrom _ _ => true | _ => false end.
Definition up_b (m : positive) (M : module) : bool :=
  match m_up M with
  | [] => true
  | p :: r => match P !! p with Some Mp => m_pkg Mp && bool_decide (m_up Mp = r) | None => false end
  end.
Definition makes (n : name) (c : stmt) : bool := match c with SClass n' _ => str_eqb n n' | _ => false end.
Definition takes (n : name) (c : stmt) : bool := match c with SFrom _ n' => str_eqb n n' | _ => false end.
Definition target_b (m : positive) (M : module) : bool :=
  forallb (λ c, match c with
    | SFrom t n => match P !! t with Some Mt => negb (m_pkg Mt) && existsb (makes n) (m_body Mt) | None => false end && negb (Pos.eqb t m)
    | SClass _ _ => true
    | SAssign n => negb (existsb (takes n) (m_body M)) end) (m_body M).
Fixpoint apart_b (l : list name) : bool :=
  match l with [] => true | n :: r => negb (existsb (str_eqb n) r) && apart_b r end.
Definition names_b (M : module) : bool := apart_b (stmt_name <$> m_body M).
Definition importer_b (m : positive) (M : module) : bool :=
  forallb (λ c, match c with
    | SFrom t _ => match P !! t with
       | Some Mt => names_b Mt || existsb (Pos.eqb m) (m_up Mt)
       | None => false end
    | _ => true end) (m_body M).
Definition dups_b (m : positive) (M : module) : bool := names_b M || negb (m_pkg M).
Fixpoint base_b (pre cs : list stmt) : bool :=
  match cs with
  | [] => true
  | c :: r =>
      match c with
      | SClass n (Some b) => existsb (takes b) pre && forallb (λ c', from_b c' || negb (str_eqb (stmt_name c') b)) pre
      | _ => true
      end && base_b (c :: pre) r
  end.
Definition first_b (m : positive) (M : module) : bool :=
  let fs := List.filter from_b (m_body M) in
  let r := drop (length fs) (m_body M) in
  forallb from_b (take (length fs) (m_body M)) && forallb (λ c, negb (from_b c)) r &&
  apart_b (stmt_name <$> take (length fs) (m_body M)) && apart_b (stmt_name <$> r).
Definition child_b (m : positive) (M : module) : bool :=
  match m_up M with
  | p :: _ => match P !! p with
     | Some Mp => forallb (λ c, match c with
         | SFrom t n => negb (str_eqb (m_last M) n) || Pos.eqb t m
         | SClass n _ => negb (str_eqb (m_last M) n)
         | SAssign _ => true end) (m_body Mp)
     | None => false end
  | [] => true
  end.
Definition orderly_b (m : positive) (M : module) : bool :=
  up_b m M && target_b m M && importer_b m M && dups_b m M && base_b [] (m_body M) && first_b m M && child_b m M.
Lemma existsb_in {A} (f : A → bool) l : existsb f l = true → ∃ x, x ∈ l ∧ f x = true.
Proof. rewrite existsb_exists. intros (x & I & E). exists x. split; [by apply elem_of_list_In|done]. Qed.
Lemma forallb_in {A} (f : A → bool) l : forallb f l = true → ∀ x, x ∈ l → f x = true.
Proof. rewrite forallb_forall. intros H x I. apply H. by apply elem_of_list_In. Qed.
Lemma apart_b_ok l : apart_b l = true → NoDup l.
Proof.
  induction l as [|n r IH]; cbn; intros E; [constructor|]. apply andb_prop in E as [E1 E2]. constructor; [|auto].
  intros I. apply negb_true_iff in E1. rewrite <- not_true_iff_false in E1. apply E1. apply existsb_exists. exists n.
  split; [by apply elem_of_list_In|apply str_eqb_refl].
Qed.
Lemma from_b_ok c : from_b c = true ↔ is_from c.
Proof. destruct c; cbn; split; done. Qed.
Lemma base_b_ok cs pre0 : base_b pre0 cs = true → ∀ pre n b post, cs = pre ++ SClass n (Some b) :: post →
  (∃ t, SFrom t b ∈ reverse pre0 ++ pre) ∧ ∀ c, c ∈ reverse pre0 ++ pre → ¬ is_from c → stmt_name c ≠ b.
Proof.
  revert pre0. induction cs as [|c cs IH]; intros pre0 E pre n b post Es; [by destruct pre|].
  cbn [base_b] in E. apply andb_prop in E as [E1 E2]. destruct pre as [|c' pre].
  - injection Es as -> ->. apply andb_prop in E1 as [E1 E3]. rewrite app_nil_r. split.
    + apply existsb_in in E1 as (x & I & T). destruct x as [t n'| |]; try discriminate. apply str_eqb_eq in T as ->.
      exists t. by apply elem_of_reverse.
    + intros c I F X. rewrite elem_of_reverse in I. apply (forallb_in _ _ E3) in I. subst b. rewrite str_eqb_refl in I.
      apply F, from_b_ok. by destruct (from_b c).
  - injection Es as -> ->. destruct (IH (c' :: pre0) E2 pre n b post eq_refl) as [A B].
    rewrite reverse_cons, <- app_assoc in A, B. split; [exact A|exact B].
Qed.

Context (HP : ∀ m M, P !! m = Some M → orderly_b m M = true).
Lemma orderly m M : P !! m = Some M → up_b m M = true ∧ target_b m M = true ∧ importer_b m M = true ∧ dups_b m M = true ∧
  base_b [] (m_body M) = true ∧ first_b m M = true ∧ child_b m M = true.
Proof. intros E. pose proof (HP m M E) as X. unfold orderly_b in X. rewrite !andb_true_iff in X. tauto. Qed.
Lemma body_at m c : c ∈ body P m → ∃ M, P !! m = Some M ∧ body P m = m_body M ∧ c ∈ m_body M.
Proof. unfold body. destruct (P !! m) as [M|] eqn:E; [|intros X; by apply elem_of_nil in X]. eauto. Qed.
Lemma ups_at m p r : ups P m = p :: r → ∃ M, P !! m = Some M ∧ m_up M = p :: r.
Proof. unfold ups. destruct (P !! m) as [M|] eqn:E; [|discriminate]. eauto. Qed.

Lemma orderly_ok : Orderly P.
Proof.
  split.
  - intros m p r U. apply ups_at in U as (M & E & U). destruct (orderly m M E) as (A & _). unfold up_b in A. rewrite U in A.
    unfold ups, is_pkg. destruct (P !! p) as [Mp|] eqn:Ep; [|discriminate]. apply andb_prop in A as [A B].
    apply bool_decide_eq_true in B. eauto.
  - intros m t n I. apply body_at in I as (M & E & _ & I). destruct (orderly m M E) as (_ & A & _).
    apply (forallb_in _ _ A) in I. cbn beta iota in I. apply andb_prop in I as [I _]. unfold is_pkg, body.
    destruct (P !! t) as [Mt|]; [|discriminate]. apply andb_prop in I as [I1 I2]. split; [eauto|]. split; [by apply negb_true_iff|].
    apply existsb_in in I2 as (x & Ix & X). destruct x as [|n' bs|]; try discriminate. apply str_eqb_eq in X as ->. by exists bs.
  - intros m I. apply elem_of_list_omap in I as (c & I & X). destruct c as [t n| |]; try discriminate. injection X as ->.
    apply body_at in I as (M & E & _ & I). destruct (orderly m M E) as (_ & A & _).
    apply (forallb_in _ _ A) in I. cbn beta iota in I. apply andb_prop in I as [_ I]. by rewrite Pos.eqb_refl in I.
  - intros m. destruct (P !! m) as [M|] eqn:E; [|left; unfold body; rewrite E; constructor].
    destruct (names_b M) eqn:N; [left; unfold body; rewrite E; by apply apart_b_ok|right].
    destruct (orderly m M E) as (_ & _ & _ & A & _). unfold dups_b in A. rewrite N in A. cbn [orb] in A.
    split; [unfold is_pkg; rewrite E; by apply negb_true_iff|].
    intros y I. apply elem_of_list_omap in I as (c & I & X). destruct c as [t n| |]; try discriminate. injection X as ->.
    apply body_at in I as (My & Ey & _ & I). destruct (orderly y My Ey) as (_ & _ & B & _). apply (forallb_in _ _ B) in I.
    cbn beta iota in I. rewrite E, N in I. cbn [orb] in I. apply existsb_in in I as (x & Ix & X). apply Pos.eqb_eq in X as <-.
    unfold ups. by rewrite E.
  - intros m. destruct (P !! m) as [M|] eqn:E.
    2:{ exists [], []. unfold body. rewrite E. split; [done|]. repeat split; constructor. }
    destruct (orderly m M E) as (_ & _ & _ & _ & _ & A & _). unfold first_b in A. rewrite !andb_true_iff in A.
    destruct A as [[[A B] C] D]. unfold body. rewrite E.
    exists (take (length (List.filter from_b (m_body M))) (m_body M)), (drop (length (List.filter from_b (m_body M))) (m_body M)).
    split; [symmetry; apply take_drop|]. split; [|split; [|split; by apply apart_b_ok]].
    + apply Forall_forall. intros c I. apply from_b_ok. exact (forallb_in _ _ A c I).
    + apply Forall_forall. intros c I X. apply from_b_ok in X. apply (forallb_in _ _ B) in I. by rewrite X in I.
  - intros m pre n b post X. assert (I : SClass n (Some b) ∈ body P m) by (rewrite X; set_solver).
    apply body_at in I as (M & E & EB & _). destruct (orderly m M E) as (_ & _ & _ & _ & A & _). rewrite EB in X.
    exact (base_b_ok _ _ A pre n b post X).
  - intros m t n I (c & Ic & F & X). destruct c as [t' n'|n' bs|n']; [by destruct F|cbn in X; subst n'; eauto|]. exfalso.
    cbn in X. subst n'. apply body_at in Ic as (M & E & EB & Ic). destruct (orderly m M E) as (_ & A & _).
    apply (forallb_in _ _ A) in Ic. cbn beta iota in Ic. apply negb_true_iff in Ic. rewrite <- not_true_iff_false in Ic. apply Ic.
    apply existsb_exists. exists (SFrom t n). split; [apply elem_of_list_In; by rewrite <- EB|apply str_eqb_refl].
  - intros c p r U. apply ups_at in U as (M & E & U). destruct (orderly c M E) as (_ & _ & _ & _ & _ & _ & A).
    unfold child_b in A. rewrite U in A. unfold last_name. rewrite E. unfold body. destruct (P !! p) as [Mp|]; [|discriminate].
    split.
    + intros t I. apply (forallb_in _ _ A) in I. cbn beta iota in I. rewrite str_eqb_refl in I. by apply Pos.eqb_eq.
    + intros bs I. apply (forallb_in _ _ A) in I. cbn beta iota in I. by rewrite str_eqb_refl in I.
Qed.
End checks.

Lemma all_modules (f : positive → module → bool) : forallb (λ x, f x.1 x.2) modules = true → ∀ m M, table !! m = Some M → f m M = true.
Proof. rewrite forallb_forall. intros H m M E. apply elem_of_list_to_map_2, elem_of_list_In in E. exact (H _ E). Qed.
Lemma orderly_true : forallb (λ x, orderly_b table x.1 x.2) modules = true.
Proof. vm_compute. reflexivity. Qed.
Theorem table_orderly : Orderly table.
Proof. exact (orderly_ok table (all_modules (orderly_b table) orderly_true)). Qed.

(** What is loaded while a module is executed. *)
Section clear.
Context (P : gmap positive module) (rk : positive → positive) (G : list (positive * positive)) (V : positive → positive → bool).
Definition mem (x : positive) (l : list positive) : bool := existsb (Pos.eqb x) l.
Lemma mem_ok x l : mem x l = true ↔ x ∈ l.
Proof.
  unfold mem. rewrite existsb_exists. split.
  - intros (y & I & E). apply Pos.eqb_eq in E as <-. by apply elem_of_list_In.
  - intros I. exists x. split; [by apply elem_of_list_In|apply Pos.eqb_refl].
Qed.
Definition guard_b (k z : positive) : bool := existsb (λ g, Pos.eqb g.1 k && Pos.eqb g.2 z) G.
Lemma guard_ok k z : guard_b k z = true → (k, z) ∈ G.
Proof.
  intros E. apply existsb_in in E as ([a b] & I & E). cbn in E. apply andb_prop in E as [E1 E2].
  apply Pos.eqb_eq in E1 as ->. by apply Pos.eqb_eq in E2 as ->.
Qed.
Definition next (y : positive) : list positive := targets P y ++ ups P y.
Fixpoint dfs (fuel : nat) (k : positive) (work : list positive) (seen : gset positive) : gset positive :=
  match fuel with
  | O => seen
  | S f => match work with
     | [] => seen
     | y :: r =>
         if bool_decide (y ∈ seen) then dfs f k r seen
         else dfs f k (List.filter (λ z, Pos.eqb (rk z) (rk k) && negb (mem z (ups P k)) && negb (guard_b k z)) (next y) ++ r) ({[y]} ∪ seen)
     end
  end.
Definition reach (k : positive) : gset positive :=
  dfs 3000 k (List.filter (λ z, Pos.eqb (rk z) (rk k) && negb (mem z (ups P k)) && negb (guard_b k z)) (targets P k)) ∅.
Definition ok_b (k : positive) (seen : gset positive) (z : positive) : bool :=
  Pos.ltb (rk z) (rk k) || Pos.eqb (rk z) (rk k) && (bool_decide (z ∈ seen) || mem z (ups P k) || guard_b k z).
Definition clear_b (k : positive) (M : module) : bool :=
  m_pkg M ||
  let seen := reach k in
  forallb (ok_b k seen) (targets P k) &&
  forallb (λ y, Pos.eqb (rk y) (rk k) && forallb (ok_b k seen) (next y) && negb (mem k (targets P y))) (elements seen).
Definition mono_b (y : positive) (M : module) : bool := forallb (λ z, Pos.leb (rk z) (rk y)) (next y).
Definition free_b (y : positive) (M : module) : bool :=
  forallb (λ g, negb (V g.1 y) ||
     forallb (V g.1) (ups P y) && (Pos.eqb y g.2 || mem g.2 (ups P y) || forallb (V g.1) (targets P y))) G.

Context (O : Orderly P) (H1 : ∀ m M, P !! m = Some M → clear_b m M = true) (H2 : ∀ m M, P !! m = Some M → mono_b m M = true)
  (H3 : ∀ m M, P !! m = Some M → free_b m M = true) (H4 : forallb (λ g, negb (V g.1 g.1)) G = true).
Definition Cv (k y : positive) : Prop :=
  is_pkg P k = false ∧ is_Some (P !! k) ∧ ((rk y < rk k)%positive ∨ rk y = rk k ∧ y ∈ reach k).

Lemma ok_b_ok k z : is_pkg P k = false → is_Some (P !! k) → ok_b k (reach k) z = true → Cv k z ∨ z ∈ ups P k ∨ (k, z) ∈ G.
Proof.
  unfold ok_b, Cv. intros A B E. apply orb_prop in E as [E|E]; [left; apply Pos.ltb_lt in E; tauto|].
  apply andb_prop in E as [E1 E]. apply Pos.eqb_eq in E1. apply orb_prop in E as [E|E]; [apply orb_prop in E as [E|E]|].
  - apply bool_decide_eq_true in E. tauto.
  - apply mem_ok in E. tauto.
  - apply guard_ok in E. tauto.
Qed.
Lemma targets_at m t : t ∈ targets P m → is_Some (P !! m).
Proof. unfold targets, body. destruct (P !! m) eqn:E; [by eexists|]. intros I. by apply elem_of_nil in I. Qed.
Lemma next_at m t : t ∈ next m → is_Some (P !! m).
Proof.
  unfold next. rewrite elem_of_app. intros [I|I]; [by apply (targets_at m t)|]. unfold ups in I.
  destruct (P !! m) eqn:E; [by eexists|]. by apply elem_of_nil in I.
Qed.
Lemma mono y z : z ∈ next y → (rk z ≤ rk y)%positive.
Proof using All. intros I. destruct (next_at y z I) as [M E]. apply Pos.leb_le. exact (forallb_in _ _ (H2 y M E) z I). Qed.
Lemma clear_at k M : P !! k = Some M → is_pkg P k = false →
  forallb (ok_b k (reach k)) (targets P k) = true ∧
  ∀ y, y ∈ reach k → rk y = rk k ∧ forallb (ok_b k (reach k)) (next y) = true ∧ k ∉ targets P y.
Proof using All.
  intros E Pk. pose proof (H1 k M E) as X. unfold clear_b in X. unfold is_pkg in Pk. rewrite E in Pk. rewrite Pk in X. cbn [orb] in X.
  apply andb_prop in X as [X Y]. split; [done|]. intros y I. apply elem_of_elements in I.
  pose proof (forallb_in _ _ Y y I) as Z. cbn beta in Z. rewrite !andb_true_iff in Z. destruct Z as [[Z1 Z2] Z3].
  apply Pos.eqb_eq in Z1. split; [done|]. split; [done|]. intros Q. apply mem_ok in Q. by rewrite Q in Z3.
Qed.
Lemma clear_next k y z : Cv k y → z ∈ next y → Cv k z ∨ z ∈ ups P k ∨ (k, z) ∈ G.
Proof using All.
  intros (A & B & D) I. destruct B as [M E]. destruct D as [D|[D1 D2]].
  - left. split; [done|]. split; [eauto|]. left. pose proof (mono y z I). lia.
  - destruct (clear_at k M E A) as [_ X]. destruct (X y D2) as (_ & Y & _). apply ok_b_ok; [done|eauto|]. exact (forallb_in _ _ Y z I).
Qed.
Lemma free_at g y : g ∈ G → V g.1 y = true → is_Some (P !! y) →
  forallb (V g.1) (ups P y) = true ∧ (y = g.2 ∨ g.2 ∈ ups P y ∨ forallb (V g.1) (targets P y) = true).
Proof using All.
  intros I E [M EM]. pose proof (forallb_in _ _ (H3 y M EM) g I) as X. cbn beta in X. rewrite E in X. cbn [negb orb] in X.
  apply andb_prop in X as [X Y]. split; [done|]. apply orb_prop in Y as [Y|Y]; [apply orb_prop in Y as [Y|Y]|].
  - left. by apply Pos.eqb_eq.
  - right. left. by apply mem_ok.
  - right. by right.
Qed.
Lemma clear_ok : Clear P Cv (λ k y, V k y = true) G.
Proof using All.
  split.
  - intros k t Pk I. destruct (targets_at k t I) as [M E]. destruct (clear_at k M E Pk) as [X _].
    apply ok_b_ok; [done|eauto|]. exact (forallb_in _ _ X t I).
  - intros k y z C I. apply (clear_next k y z C). unfold next. rewrite elem_of_app. by right.
  - intros k y z C I. apply (clear_next k y z C). unfold next. rewrite elem_of_app. by left.
  - intros k y Pk (_ & [M E] & D) I. destruct D as [D|[D1 D2]].
    + pose proof (mono y k) as X. unfold next in X. rewrite elem_of_app in X. specialize (X (or_introl I)). lia.
    + destruct (clear_at k M E Pk) as [_ X]. by destruct (X y D2) as (_ & _ & ?).
  - exact (o_self P O).
  - intros k w I X. pose proof (forallb_in _ _ H4 (k, w) I) as Y. cbn in Y. by rewrite X in Y.
  - intros k w y z I X Iz. destruct (P !! y) as [M|] eqn:E.
    + destruct (free_at (k, w) y I X (mk_is_Some _ _ E)) as [Y _]. exact (forallb_in _ _ Y z Iz).
    + unfold ups in Iz. rewrite E in Iz. by apply elem_of_nil in Iz.
  - intros k w y t I X N1 N2 It. pose proof (targets_at y t It) as E.
    destruct (free_at (k, w) y I X E) as [_ [Y|[Y|Y]]]; [done|done|]. exact (forallb_in _ _ Y t It).
Qed.
End clear.

Definition rank_map : gmap positive positive := list_to_map ranks.
Definition rank (y : positive) : positive :=
  match table !! y with
  | Some M => default 1%positive (rank_map !! (if m_pkg M then y else match m_up M with p :: _ => p | [] => y end))
  | None => 1%positive
  end.
Local Open Scope positive_scope.
Definition guards : list (positive * positive) := [(843, wires); (410, entsoe_wires)].
Definition not_in (d y : positive) : bool := negb (mem d (y :: ups table y)).
Definition free (k y : positive) : bool :=
  if Pos.eqb k 843 then not_in dynamics y else not_in entsoe_dynamics y.
Lemma clear_true : forallb (λ x, clear_b table rank guards x.1 x.2 && mono_b table rank x.1 x.2 && free_b table guards free x.1 x.2) modules = true.
Proof. vm_compute. reflexivity. Qed.
Lemma clear_table : Clear table (Cv table rank guards) (λ k y, free k y = true) guards.
Proof.
  assert (X : ∀ m M, table !! m = Some M → clear_b table rank guards m M = true ∧ mono_b table rank m M = true ∧
    free_b table guards free m M = true).
  { intros m M E. pose proof (all_modules
      (λ m M, clear_b table rank guards m M && mono_b table rank m M && free_b table guards free m M) clear_true m M E) as X.
    cbn beta in X. rewrite !andb_true_iff in X. tauto. }
  apply (clear_ok table rank guards free table_orderly).
  - intros m M E. exact (proj1 (X m M E)).
  - intros m M E. exact (proj1 (proj2 (X m M E))).
  - intros m M E. exact (proj2 (proj2 (X m M E))).
  - vm_compute. reflexivity.
Qed.

(** The packages that cannot be imported first. *)
Section knots.
Context (P : gmap positive module) (F : nat).
Fixpoint walk (fuel : nat) (avoid : list positive) (work : list positive) (seen : gset positive) : gset positive :=
  match fuel with
  | O => seen
  | S f => match work with
     | [] => seen
     | y :: r => if bool_decide (y ∈ seen) || mem y avoid then walk f avoid r seen else walk f avoid (next P y ++ r) ({[y]} ∪ seen)
     end
  end.
Definition from_ids (cs : list stmt) : list positive := omap (λ c, match c with SFrom t _ => Some t | _ => None end) cs.
Definition imports_b (t : positive) (c : stmt) : bool := match c with SFrom t' _ => Pos.eqb t t' | _ => false end.
Definition knot_b (D R W B Sy : positive) (i : nat) : bool :=
  let pre := take i (body P D) in
  let X1 := walk F [] (ups P D) ∅ in
  let X2 := walk F (D :: ups P D) (from_ids pre) ∅ in
  match body P D !! i with Some c => imports_b R c | None => false end &&
  forallb from_b pre && apart_b (stmt_name <$> pre) &&
  match ups P R with p :: _ => Pos.eqb p D | [] => false end &&
  match body P R with c :: _ => imports_b B c | [] => false end &&
  mem W (ups P B) && existsb (imports_b Sy) (body P W) && existsb (imports_b R) (body P Sy) &&
  negb (mem W [R; D]) && negb (mem Sy [R; D]) && negb (Pos.eqb R D) &&
  forallb (λ z, bool_decide (z ∈ X1)) (ups P D) && forallb (λ y, forallb (λ z, bool_decide (z ∈ X1)) (next P y)) (elements X1) &&
  negb (bool_decide (D ∈ X1)) && negb (bool_decide (R ∈ X1)) &&
  forallb (λ z, bool_decide (z ∈ X2)) (from_ids pre) &&
  forallb (λ y, forallb (λ z, bool_decide (z ∈ X2) || mem z (D :: ups P D)) (next P y)) (elements X2) &&
  negb (bool_decide (R ∈ X2)).
Lemma imports_b_ok t c : imports_b t c = true → ∃ n, c = SFrom t n.
Proof. destruct c as [t' n| |]; cbn; try discriminate. intros E. apply Pos.eqb_eq in E as <-. eauto. Qed.
Lemma mem_not x l : negb (mem x l) = true → x ∉ l.
Proof. intros E I. apply mem_ok in I. by rewrite I in E. Qed.
Lemma knot_ok D R W B Sy i : knot_b D R W B Sy i = true →
  ∃ nR nB nS nR' pre post rest X1 X2, Knot P D R W B Sy nR nB nS nR' pre post rest X1 X2.
Proof.
  unfold knot_b. cbv zeta. intros A1.
  apply andb_prop in A1 as [A1 A18]. apply andb_prop in A1 as [A1 A17]. apply andb_prop in A1 as [A1 A16].
  apply andb_prop in A1 as [A1 A15]. apply andb_prop in A1 as [A1 A14]. apply andb_prop in A1 as [A1 A13].
  apply andb_prop in A1 as [A1 A12]. apply andb_prop in A1 as [A1 A11]. apply andb_prop in A1 as [A1 A10].
  apply andb_prop in A1 as [A1 A9]. apply andb_prop in A1 as [A1 A8]. apply andb_prop in A1 as [A1 A7].
  apply andb_prop in A1 as [A1 A6]. apply andb_prop in A1 as [A1 A5]. apply andb_prop in A1 as [A1 A4].
  apply andb_prop in A1 as [A1 A3]. apply andb_prop in A1 as [A1 A2].
  destruct (body P D !! i) as [c|] eqn:E; [|discriminate]. apply imports_b_ok in A1 as [nR ->].
  destruct (body P R) as [|c rest] eqn:ER; [discriminate|]. apply imports_b_ok in A5 as [nB ->].
  apply existsb_in in A7 as (c & I7 & A7). apply imports_b_ok in A7 as [nS ->].
  apply existsb_in in A8 as (c & I8 & A8). apply imports_b_ok in A8 as [nR' ->].
  exists nR, nB, nS, nR', (take i (body P D)), (drop (S i) (body P D)), rest,
    (λ y, y ∈ walk F [] (ups P D) ∅), (λ y, y ∈ walk F (D :: ups P D) (from_ids (take i (body P D))) ∅).
  split.
  - symmetry. by apply take_drop_middle.
  - apply Forall_forall. intros c I. apply from_b_ok. exact (forallb_in _ _ A2 c I).
  - by apply apart_b_ok.
  - destruct (ups P R) as [|p r]; [discriminate|]. apply Pos.eqb_eq in A4 as ->. eauto.
  - exact ER.
  - by apply mem_ok.
  - exact I7.
  - exact I8.
  - split; [by apply mem_not|]. split; [by apply mem_not|]. intros ->. by rewrite Pos.eqb_refl in A11.
  - intros z I. pose proof (forallb_in _ _ A12 z I) as X. by apply bool_decide_eq_true in X.
  - intros y z I J. apply elem_of_elements in I. pose proof (forallb_in _ _ A13 y I) as X. cbn beta in X.
    assert (Q : z ∈ next P y) by (unfold next; rewrite elem_of_app; tauto).
    pose proof (forallb_in _ _ X z Q) as Y. by apply bool_decide_eq_true in Y.
  - apply negb_true_iff, bool_decide_eq_false in A14. apply negb_true_iff, bool_decide_eq_false in A15. done.
  - intros t n I. assert (Q : t ∈ from_ids (take i (body P D))) by (apply elem_of_list_omap; by exists (SFrom t n)).
    pose proof (forallb_in _ _ A16 t Q) as X. by apply bool_decide_eq_true in X.
  - intros y z I J. apply elem_of_elements in I. pose proof (forallb_in _ _ A17 y I) as X. cbn beta in X.
    assert (Q : z ∈ next P y) by (unfold next; rewrite elem_of_app; tauto).
    pose proof (forallb_in _ _ X z Q) as Y. cbn beta in Y. apply orb_prop in Y as [Y|Y].
    + left. by apply bool_decide_eq_true in Y.
    + right. apply mem_ok in Y. by apply elem_of_cons in Y.
  - by apply negb_true_iff, bool_decide_eq_false in A18.
Qed.
End knots.
Lemma knot_dynamics : knot_b table 3000 740 843 1043 1074 1083 1 = true.
Proof. vm_compute. reflexivity. Qed.
Lemma knot_entsoe : knot_b table 3000 386 410 466 467 469 17 = true.
Proof. vm_compute. reflexivity. Qed.
