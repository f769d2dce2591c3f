(** Which class tables extend others. *)
From Coq Require Import String ZArith.
From stdpp Require Import prelude gmap.
From Verif Require Import PyStr PyHeap Schema AssocSpec Names TabCIM14 TabCIM15 TabProfiles Tables TableSpec TableFacts BlankFacts Reader ReaderSpec ReaderFacts CrossSpec CreateFacts RoundTables.

Definition in_b (a : name) (l : list name) : bool := existsb (str_eqb a) l.
Lemma in_b_ok a l : in_b a l = true ↔ a ∈ l.
Proof.
  unfold in_b. rewrite existsb_exists. split.
  - intros (b & Hb%elem_of_list_In & Hab%str_eqb_eq). by subst b.
  - intros Ha%elem_of_list_In. exists a. by rewrite str_eqb_refl.
Qed.
Lemma in_b_no a l : in_b a l = false ↔ a ∉ l.
Proof. rewrite <- in_b_ok. by destruct (in_b a l). Qed.

Section classes.
Context (cs Cs : list cls).
Notation attrs := (flat_map c_attrs).
Definition none_b (o : option prop) : bool := match o with None => true | Some _ => false end.
Definition attr_b (As : list name) (a : name) : bool :=
  negb (bool_decide (key_of a = Pub a) && none_b (lookup_in cs a)) ||
  none_b (lookup_in Cs a) && in_b a As && bool_decide (ctor_default Cs a = ctor_default cs a).
Definition prop_b (p : name) : bool := bool_decide (lookup_in Cs p = lookup_in cs p).
Definition ref_b (As : list name) (c : cls) (r : name) : bool :=
  in_b r (c_many c) || negb (none_b (lookup_in cs r)) || none_b (lookup_in Cs r) && negb (in_b r As).
Definition extends_b : bool :=
  let As := attrs Cs in
  forallb (λ c, forallb (attr_b As) (c_attrs c) && forallb (λ px, prop_b px.1) (c_props c) && forallb (ref_b As c) (c_refs c)) cs.
End classes.
Lemma flat_attrs cs a : a ∈ flat_map c_attrs cs ↔ ∃ c, c ∈ cs ∧ a ∈ c_attrs c.
Proof. rewrite elem_of_list_In, in_flat_map. by setoid_rewrite <- elem_of_list_In. Qed.
Lemma none_b_ok o : none_b o = true ↔ o = None.
Proof. by destruct o. Qed.
Lemma lookup_some cs c p : c ∈ cs → p ∈ map fst (c_props c) → is_Some (lookup_in cs p).
Proof.
  induction cs as [|c' cs IH]; [by intros ?%elem_of_nil|]. intros [->|Hc]%elem_of_cons Hp; cbn [lookup_in].
  - destruct (assoc p (c_props c')) as [x|] eqn:E; [by exists x|]. apply elem_of_list_fmap in Hp as ([p' x] & -> & Hin). clear -E Hin.
    induction (c_props c') as [|[q y] l IHl]; [by apply elem_of_nil in Hin|]. cbn [assoc] in E. cbn [fst] in *. destruct (str_eqb p' q) eqn:Eq; [done|].
    apply elem_of_cons in Hin as [[= <- <-]|Hin]; [by rewrite str_eqb_refl in Eq|by apply IHl].
  - destruct (assoc p (c_props c')) as [x|]; [by exists x|by apply IH].
Qed.
Lemma extends_b_ok S k T K : extends_b (mro S k) (mro T K) = true ↔ extends S k T K.
Proof.
  unfold extends_b. cbv zeta. rewrite forallb_forall. split.
  - intros Hall. split.
    + intros a (Hpub & Hl & c & Hc & Ha). specialize (Hall c (proj1 (elem_of_list_In _ _) Hc)). apply andb_true_iff in Hall as [[H1 _]%andb_true_iff _].
      rewrite forallb_forall in H1. specialize (H1 a (proj1 (elem_of_list_In _ _) Ha)). unfold attr_b in H1.
      change (lookup_in (mro S k) a) with (lookup_prop S k a) in H1. rewrite Hl, bool_decide_true in H1 by done. cbn [none_b andb negb orb] in H1.
      apply andb_true_iff in H1 as [[H1%none_b_ok H2%in_b_ok]%andb_true_iff H3%bool_decide_eq_true]. split; [|done]. split_and!; [done..|].
      by apply flat_attrs.
    + intros p kk Hl. pose proof Hl as (c & Hc & Hp)%lookup_in_props. specialize (Hall c (proj1 (elem_of_list_In _ _) Hc)). apply andb_true_iff in Hall as [[_ H1]%andb_true_iff _].
      rewrite forallb_forall in H1. specialize (H1 _ (proj1 (elem_of_list_In _ _) Hp)). cbn [fst] in H1. unfold prop_b in H1. apply bool_decide_eq_true in H1.
      unfold lookup_prop. rewrite H1. exact Hl.
    + intros c r Hc Hr Hm Hl. specialize (Hall c (proj1 (elem_of_list_In _ _) Hc)). apply andb_true_iff in Hall as [_ H1].
      rewrite forallb_forall in H1. specialize (H1 _ (proj1 (elem_of_list_In _ _) Hr)). unfold ref_b in H1.
      change (lookup_in (mro S k) r) with (lookup_prop S k r) in H1. apply in_b_no in Hm. rewrite Hl, Hm in H1. cbn [none_b negb orb] in H1.
      apply andb_true_iff in H1 as [H1%none_b_ok H2%negb_true_iff]. apply in_b_no in H2. split; [done|]. intros C HC Ha. apply H2, flat_attrs. eauto.
  - intros [H1 H2 H3] c Hc%elem_of_list_In. rewrite !andb_true_iff, !forallb_forall. split_and!.
    + intros a Ha%elem_of_list_In. unfold attr_b. destruct (bool_decide (key_of a = Pub a)) eqn:Ek; [|done]. apply bool_decide_eq_true in Ek.
      destruct (lookup_in (mro S k) a) eqn:El; [done|]. cbn [none_b andb negb orb].
      destruct (H1 a) as [(_ & HlT & C & HC & HaC) Hd]; [split_and!; [done..|by exists c]|].
      change (lookup_in (mro T K) a) with (lookup_prop T K a). rewrite HlT. cbn [none_b]. rewrite !andb_true_iff. split_and!; [done| |by apply bool_decide_eq_true].
      apply in_b_ok, flat_attrs. eauto.
    + intros [p x] Hp%elem_of_list_In. cbn [fst]. unfold prop_b. apply bool_decide_eq_true.
      destruct (lookup_some (mro S k) c p Hc) as [y Hy]; [apply elem_of_list_fmap; by exists (p, x)|]. rewrite Hy. by apply H2.
    + intros r Hr%elem_of_list_In. unfold ref_b. destruct (in_b r (c_many c)) eqn:Em; [done|]. apply in_b_no in Em.
      destruct (lookup_in (mro S k) r) eqn:El; [done|]. cbn [none_b negb orb]. destruct (H3 c r Hc Hr Em El) as [HlT Hno].
      change (lookup_in (mro T K) r) with (lookup_prop T K r). rewrite HlT. cbn [none_b andb]. apply negb_true_iff, in_b_no. intros (C & HC & Ha)%flat_attrs.
      by apply (Hno C).
Qed.

Definition embeds_b (S : schema) (pm : list (name * name)) (T : schema) (tm : list (name * name)) : bool :=
  let s := cmap S in let n := length S in let m := cmap T in let l := length T in
  forallb (λ nk, in_b nk.2 unconstructible ||
    match assoc nk.1 tm with Some K => negb (in_b K unconstructible) && extends_b (mro_map n s nk.2) (mro_map l m K) | None => false end) pm.
Lemma embeds_b_ok S pm T tm : embeds_b S pm T tm = true → embeds S pm T tm.
Proof.
  unfold embeds_b. cbv zeta. rewrite forallb_forall. intros Hall n k Hin%assoc_in Hu. specialize (Hall _ (proj1 (elem_of_list_In _ _) Hin)). cbn [fst snd] in Hall.
  apply in_b_no in Hu. rewrite Hu in Hall. cbn [orb] in Hall. destruct (assoc n tm) as [K|]; [|done].
  apply andb_true_iff in Hall as [H1%negb_true_iff H2]. rewrite !mro_map_mro in H2. exists K. split_and!; [done|by apply in_b_no|by apply extends_b_ok].
Qed.
(** A class that is not extended. *)
Definition fails_b (S : schema) (pm : list (name * name)) (T : schema) (tm : list (name * name)) (n : name) : bool :=
  match assoc n pm with
  | Some k => negb (in_b k unconstructible) &&
      match assoc n tm with Some K => in_b K unconstructible || negb (extends_b (mro S k) (mro T K)) | None => true end
  | None => false
  end.
Lemma fails_b_ok S pm T tm n : fails_b S pm T tm n = true → ¬ embeds S pm T tm.
Proof.
  unfold fails_b. intros Hb He. destruct (assoc n pm) as [k|] eqn:E; [|done]. apply andb_true_iff in Hb as [Hu%negb_true_iff Hb]. apply in_b_no in Hu.
  destruct (He n k E Hu) as (K & HK & HuK & Hex). rewrite HK in Hb. apply in_b_no in HuK. rewrite HuK in Hb. apply extends_b_ok in Hex. by rewrite Hex in Hb.
Qed.
Lemma mro_found S k c : c ∈ mro S k → ∃ c0, find_cls S k = Some c0.
Proof.
  unfold mro. destruct (length S) as [|n]; cbn [mro_fuel]; [by intros ?%elem_of_nil|]. destruct (find_cls S k) as [c0|]; [by exists c0|by intros ?%elem_of_nil].
Qed.
Lemma embeds_refl t pm : (t, pm) ∈ tables → embeds t pm t pm.
Proof.
  intros Ht n k Hn Hu. exists k. split_and!; [done..|]. split; [done|done|]. intros c r Hc Hr Hm Hl. split; [done|].
  destruct (mro_found _ _ _ Hc) as [c0 Hf]. assert (round_cls (mro t k) = true) as Hrc by (by eapply (round_ok t pm k c0)).
  destruct (round_ref_ok _ _ Hrc c r Hc Hr Hm) as [_ Hk]. by rewrite Hl in Hk.
Qed.
