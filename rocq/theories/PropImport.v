(** C105: which modules can be imported, and which class the name of a class leads to. *)
From Coq Require Import String PArith.
From stdpp Require Import prelude gmap.
From Verif Require Import PyStr PyHeap Schema Names Tables Imports TabImports ImportRanks ImportFacts ImportLoads ImportSpec ImportTabs.

Local Opaque table modules.
Lemma dynamics_known : is_Some (table !! dynamics).
Proof. vm_compute. by eexists. Qed.
Lemma wires_known : is_Some (table !! wires).
Proof. vm_compute. by eexists. Qed.
Lemma interpreter_sound f s : interpreter f s → Sound table s [].
Proof.
  induction 1 as [|s m s' _ IH E]; [apply sound_empty|].
  by destruct (import_good table table_orderly f m s s' [] IH (unmade_nil _ _) E) as (? & _ & _).
Qed.
Lemma size_table : size table ≤ length modules.
Proof. apply (Nat.leb_le (size table) (length modules)). vm_compute. reflexivity. Qed.
Lemma not_in_ok d m : not_in d m = true ↔ d ∉ m :: ups table m.
Proof. unfold not_in. rewrite negb_true_iff, <- not_true_iff_false, mem_ok. done. Qed.
Lemma inside_ok d m : inside d m ↔ d ∈ m :: ups table m.
Proof.
  unfold inside, ups. rewrite elem_of_cons. split.
  - intros [->|(M & -> & I)]; auto.
  - intros [->|I]; [by left|right]. destruct (table !! m) as [M|]; [eauto|by apply elem_of_nil in I].
Qed.
Lemma inside_dec d m : inside d m ∨ ¬ inside d m.
Proof. rewrite inside_ok. destruct (decide (d ∈ m :: ups table m)); auto. Qed.
Lemma in_sys_dec s m : in_sys s m ∨ ¬ in_sys s m.
Proof. unfold in_sys. destruct (s !! m); [left; eauto|right; intros [? ?]; discriminate]. Qed.

Lemma import_now f s m : length modules < f → interpreter f s → is_Some (table !! m) → ¬ too_early s m →
  ∃ s', import_module table f m s = (None, s').
Proof.
  intros F I K N. pose proof (interpreter_sound f s I) as SO.
  apply (import_works table table_orderly _ _ _ clear_table f m s []).
  - exact SO.
  - apply unmade_nil.
  - split; [exact K|]. split; [intros k X; destruct (not_elem_of_nil _ X)|].
    assert (A : ∀ d w, (inside d m → ¬ in_sys s w → too_early s m) → in_sys s w ∨ not_in d m = true).
    { intros d w X. destruct (in_sys_dec s w) as [L|L]; [by left|right]. apply not_in_ok. intros Y. apply N, X; [by apply inside_ok|exact L]. }
    intros k w X. apply elem_of_cons in X as [X|X]; [|apply elem_of_list_singleton in X]; injection X as -> ->.
    + apply (A dynamics wires). intros ??. left. done.
    + apply (A entsoe_dynamics entsoe_wires). intros ??. right. done.
  - intros k w X. destruct (not_elem_of_nil _ X).
  - pose proof size_table. lia.
Qed.
Lemma import_early f s m s' : interpreter f s → too_early s m → import_module table f m s ≠ (None, s').
Proof.
  intros I T. pose proof (interpreter_sound f s I) as SO. destruct T as [[A B]|[A B]]; apply inside_ok in A.
  - destruct (knot_ok table _ _ _ _ _ _ _ knot_dynamics) as (? & ? & ? & ? & ? & ? & ? & ? & ? & KN).
    exact (knot_import table table_orderly _ _ _ _ _ _ _ _ _ _ _ _ _ _ KN f m s s' SO B A).
  - destruct (knot_ok table _ _ _ _ _ _ _ knot_entsoe) as (? & ? & ? & ? & ? & ? & ? & ? & ? & KN).
    exact (knot_import table table_orderly _ _ _ _ _ _ _ _ _ _ _ _ _ _ KN f m s s' SO B A).
Qed.

(** Whatever has been imported before, in whatever order: a module is imported
    unless it is too early for it, and then the error is an ImportError. *)
Theorem C105_import f s m : length modules < f → interpreter f s → is_Some (table !! m) →
  (too_early s m → ∃ s', import_module table f m s = (Some ImportError, s')) ∧
  (¬ too_early s m → ∃ s', import_module table f m s = (None, s') ∧ interpreter f s' ∧ in_sys s' m ∧ ∀ k, in_sys s k → in_sys s' k).
Proof.
  intros F I K. pose proof (interpreter_sound f s I) as SO. split; intros T.
  - destruct (import_module table f m s) as [[e|] s'] eqn:E; [|destruct (import_early f s m s' I T E)].
    exists s'. f_equal. f_equal. apply (import_error_only table table_orderly f m s [] e s' SO (unmade_nil _ _) K); [|exact E].
    pose proof size_table. lia.
  - destruct (import_now f s m F I K T) as [s' E]. exists s'. split; [done|].
    destruct (import_good table table_orderly f m s s' [] SO (unmade_nil _ _) E) as (_ & L & Y).
    split; [by apply (int_import f s m)|]. split; [exact Y|]. exact (la_stay _ _ _ L).
Qed.
Print Assumptions C105_import.

Lemma uses_next m z : z ∈ ups table m ∨ z ∈ targets table m → uses m z.
Proof.
  intros X. unfold ups, targets, body in X. destruct (table !! m) as [M|] eqn:E.
  - exists M. split; [exact E|]. destruct X as [X|X]; [by left|right]. apply elem_of_list_omap in X as (c & I & Y).
    destruct c as [t n| |]; [|discriminate Y..]. injection Y as <-. by exists n.
  - destruct X as [X|X]; destruct (not_elem_of_nil _ X).
Qed.
(** An import that succeeds loads exactly what the module needs. *)
Theorem C105_loads f s m s' : interpreter f s → import_module table f m s = (None, s') →
  ∀ k, in_sys s' k ↔ in_sys s k ∨ needs m k.
Proof.
  intros I E k. pose proof (interpreter_sound f s I) as SO.
  destruct (import_good table table_orderly f m s s' [] SO (unmade_nil _ _) E) as (SO' & L & Lm). split.
  - assert (HX : ∀ y z, needs m y → z ∈ ups table y ∨ z ∈ targets table y → needs m z ∨ loaded s z).
    { intros y z Y Z. left. apply (rtc_r m y z Y). by apply uses_next. }
    destruct (import_within table (needs m) s HX f m s s') as [_ W]; [left; apply rtc_refl|split; auto|exact E|]. exact (W k).
  - intros [X|X]; [exact (la_stay _ _ _ L k X)|]. revert Lm. clear -SO' X. induction X as [|x y z (M & EM & U) _ IH]; [auto|].
    intros Lx. apply IH. destruct U as [U|[n U]].
    + apply (so_up _ _ _ SO' x y Lx). unfold ups. by rewrite EM.
    + destruct (so_from _ _ _ SO' x y n Lx (not_elem_of_nil _)) as (A & _ & _); [unfold body; by rewrite EM|exact A].
Qed.
Print Assumptions C105_loads.

(** Once the two packages for wires are imported nothing fails. *)
Theorem C105_wires_first f s m : length modules < f → interpreter f s → in_sys s wires → in_sys s entsoe_wires →
  is_Some (table !! m) → ∃ s', import_module table f m s = (None, s').
Proof. intros F I A B K. apply (import_now f s m F I K). intros [[_ X]|[_ X]]; done. Qed.
Print Assumptions C105_wires_first.

(** No import is left half done: every name that a statement of an imported module
    binds is bound to the class it means. *)
Theorem C105_names f s m M : interpreter f s → in_sys s m → table !! m = Some M →
  (∀ t n, SFrom t n ∈ m_body M → in_sys s t ∧ (look s m n = Some (BClass t n) ∨ ∃ b, SClass n b ∈ m_body M)) ∧
  ∀ n b, SClass n b ∈ m_body M → look s m n = Some (BClass m n).
Proof.
  intros I L E. pose proof (interpreter_sound f s I) as SO.
  assert (EB : body table m = m_body M) by (unfold body; by rewrite E). split.
  - intros t n X. destruct (so_from _ _ _ SO m t n L) as (A & _ & B); [apply not_elem_of_nil|by rewrite EB|].
    split; [exact A|]. by rewrite <- EB.
  - intros n b X. apply (so_class _ _ _ SO m n b L); [apply not_elem_of_nil|by rewrite EB].
Qed.
Print Assumptions C105_names.

(** In a fresh interpreter some modules cannot be imported. *)
Theorem C105_first_refuted f : ∃ m, is_Some (table !! m) ∧ ∀ s', import_module table f m ∅ ≠ (None, s').
Proof.
  exists dynamics. split; [apply dynamics_known|]. intros s'. apply (import_early f ∅ dynamics s'); [constructor|].
  left. split; [by left|]. intros [? X]. by rewrite lookup_empty in X.
Qed.
Print Assumptions C105_first_refuted.

(** The packages of the maps: every tag is bound to a class whose dotted name is the
    key of the class table. *)
Fixpoint same_names (a b : list name) : bool :=
  match a, b with
  | [], [] => true
  | x :: a', y :: b' => str_eqb x y && same_names a' b'
  | _, _ => false
  end.
Definition binds_b (p : positive) (tag : name) (k : pystr) : bool :=
  existsb (λ c, match c with
    | SFrom m n => str_eqb n tag && str_eqb (class_path m tag) k && negb (existsb (makes tag) (body table p))
    | SClass n _ => str_eqb n tag && str_eqb (class_path p tag) k
    | SAssign _ => false end) (body table p).
Definition group_b (x : (schema * list (name * name)) * list (name * positive)) : bool :=
  same_names (map fst (x.1.2)) (map fst x.2) &&
  forallb (λ tp, match assoc tp.1 x.1.2 with Some k => binds_b tp.2 tp.1 k | None => false end) x.2.
Lemma groups_true : forallb group_b (zip tables packages) = true.
Proof. vm_compute. reflexivity. Qed.
Lemma same_names_ok a b : same_names a b = true → a = b.
Proof.
  revert b. induction a as [|x a IH]; intros [|y b] E; try discriminate; [done|]. cbn in E. apply andb_prop in E as [E1 E2].
  apply str_eqb_eq in E1 as ->. f_equal. by apply IH.
Qed.
Lemma assoc_elem {B} k (l : list (name * B)) v : assoc k l = Some v → (k, v) ∈ l.
Proof.
  induction l as [|[k' v'] l IH]; cbn; [done|]. destruct (str_eqb k k') eqn:E; intros X.
  - injection X as ->. apply str_eqb_eq in E as ->. by left.
  - right. by apply IH.
Qed.
Lemma binds_b_ok f s p tag k : interpreter f s → in_sys s p → binds_b p tag k = true →
  ∃ m, look s p tag = Some (BClass m tag) ∧ k = class_path m tag.
Proof.
  intros I L E. pose proof (interpreter_sound f s I) as SO. unfold binds_b in E. apply existsb_in in E as (c & Ic & E).
  destruct c as [m n|n b|n]; [| |discriminate].
  - apply andb_prop in E as [E E3]. apply andb_prop in E as [E1 E2]. apply str_eqb_eq in E1 as ->. apply str_eqb_eq in E2 as <-.
    exists m. split; [|reflexivity].
    destruct (so_from _ _ _ SO p m tag L (not_elem_of_nil _) Ic) as (_ & _ & [X|[b X]]); [exact X|]. exfalso.
    apply negb_true_iff in E3. rewrite <- not_true_iff_false in E3. apply E3. apply existsb_exists. exists (SClass tag b).
    split; [exact (proj1 (elem_of_list_In _ _) X)|apply str_eqb_refl].
  - apply andb_prop in E as [E1 E2]. apply str_eqb_eq in E1 as ->. apply str_eqb_eq in E2 as <-.
    exists p. split; [|reflexivity]. exact (so_class _ _ _ SO p tag b L (not_elem_of_nil _) Ic).
Qed.
Lemma packages_known : forallb (λ pk, forallb (λ tp, match table !! tp.2 with Some _ => true | None => false end) pk) packages = true.
Proof. vm_compute. reflexivity. Qed.

(** The class that cimread makes an object of: whatever has been imported before,
    the tag leads to the class with the key that the class table has for it, or it
    is too early for the package and the error is an ImportError. *)
Theorem C105_class f s t (pm : list (name * name)) pk tag p : length modules < f → interpreter f s → ((t, pm), pk) ∈ zip tables packages →
  assoc tag pk = Some p →
  map fst pm = map fst pk ∧
  (too_early s p → ∃ s', import_class table f p tag s = (inr ImportError, s')) ∧
  (¬ too_early s p → ∃ m s', import_class table f p tag s = (inl (BClass m tag), s') ∧ interpreter f s' ∧
     assoc tag pm = Some (class_path m tag)).
Proof.
  intros F I Z A. pose proof (forallb_in _ _ groups_true _ Z) as G. unfold group_b in G. cbn beta iota delta [fst snd] in G.
  apply andb_prop in G as [G1 G2]. apply assoc_elem in A. pose proof (forallb_in _ _ G2 _ A) as G. cbn beta iota delta [fst snd] in G.
  destruct (assoc tag pm) as [k|] eqn:Ek; [|discriminate G].
  assert (K : is_Some (table !! p)).
  { apply elem_of_zip_r in Z. pose proof (forallb_in _ _ packages_known _ Z) as Y. pose proof (forallb_in _ _ Y _ A) as X.
    cbn beta iota delta [fst snd] in X. destruct (table !! p) as [M|]; [exists M; reflexivity|discriminate X]. }
  destruct (C105_import f s p F I K) as [C1 C2].
  split; [by apply same_names_ok|]. split; intros T.
  - destruct (C1 T) as [s' E]. exists s'. unfold import_class. rewrite E. reflexivity.
  - destruct (C2 T) as (s' & E & I' & L & _). destruct (binds_b_ok f s' p tag k I' L G) as (m & X & ->).
    exists m, s'. unfold import_class. rewrite E, X. split; [reflexivity|]. split; [exact I'|reflexivity].
Qed.
Print Assumptions C105_class.

(** The names of the modules in question, and an interpreter in which the packages
    are imported in the order that works. *)
Example C105_called : dotted dynamics = u "CIM14.IEC61970.Dynamics" ∧ dotted wires = u "CIM14.IEC61970.Wires" ∧
  dotted entsoe_dynamics = u "CIM14.ENTSOE.Dynamics.IEC61970.Dynamics" ∧ dotted entsoe_wires = u "CIM14.ENTSOE.Dynamics.IEC61970.Wires" ∧
  length modules = 1893.
Proof. vm_compute. done. Qed.
Example C105_in_order : ∃ s, interpreter 2000 s ∧ in_sys s wires ∧ ¬ in_sys s entsoe_wires ∧ ¬ too_early s dynamics ∧ too_early s entsoe_dynamics.
Proof.
  assert (N : length modules < 2000) by (apply Nat.ltb_lt; vm_compute; reflexivity).
  assert (K : is_Some (table !! wires)) by apply wires_known.
  assert (E : (import_module table 2000 wires ∅).1 = None ∧ (import_module table 2000 wires ∅).2 !! entsoe_wires = None) by (vm_compute; done).
  destruct (import_module table 2000 wires ∅) as [e s] eqn:R. cbn [fst snd] in E. destruct E as [-> E].
  assert (I : interpreter 2000 s) by (by apply (int_import 2000 ∅ wires s); [constructor|]).
  destruct (import_good table table_orderly 2000 wires ∅ s [] (sound_empty table) (unmade_nil _ _) R) as (_ & _ & L).
  assert (X : ¬ in_sys s entsoe_wires) by (intros [? Y]; congruence).
  exists s. split; [exact I|]. split; [exact L|]. split; [exact X|]. split.
  - intros [[_ Y]|[Y _]]; [by apply Y|]. apply inside_ok in Y. revert Y. apply not_in_ok. vm_compute. reflexivity.
  - right. split; [by left|exact X].
Qed.
Example C105_tags : assoc (u "RotatingMachine") cim14_packages = Some dynamics ∧ assoc (u "ACLineSegment") cim14_packages = Some wires.
Proof. vm_compute. done. Qed.
