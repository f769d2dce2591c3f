(** Documents that say the same in another order. *)
From Coq Require Import String.
From stdpp Require Import prelude gmap.
From Verif Require Import PyStr PyHeap Schema Assoc AssocSpec HeapFacts LinksFacts AssocFacts CtorFacts HistorySpec
  HistoryFacts Names TabCIM14 TabCIM15 TabProfiles Tables TableSpec TableFacts BlankFacts Reader ReaderSpec ReaderFacts
  FrameFacts StatementFacts CreateFacts ReaderTabs CompatFacts NumFacts ReadSound ReadStepFacts ReadDocFacts RoundDocFacts RoundFacts
  DocSpec DocFacts RefFacts ReturnFacts.

(** *** Documents that say the same *)
Section same.
Context (base rdf : pystr) (pm : list (name * name)) (d : dict).
Lemma in_about evs id e : (id, e) ∈ doc_statements base rdf pm evs d ↔ e ∈ about base rdf pm evs d id (after_last_dot (local base e)).
Proof.
  unfold about. rewrite elem_of_list_omap. split.
  - intros Hin. exists (id, e). split; [done|]. cbn [fst snd]. by rewrite decide_True.
  - intros ([i e'] & Hin & E). cbn [fst snd] in E. case_decide as Hd; [|done]. destruct Hd as [-> _]. by simplify_eq.
Qed.
Context (evs evs' : list event) (Hsd : same_doc base rdf pm d evs evs').
Lemma same_class h id : class_in base rdf pm evs d h id = class_in base rdf pm evs' d h id.
Proof using Hsd. unfold class_in. by rewrite (proj1 Hsd). Qed.
Lemma same_statement id e : (id, e) ∈ doc_statements base rdf pm evs d ↔ (id, e) ∈ doc_statements base rdf pm evs' d.
Proof using Hsd. rewrite !in_about. by rewrite (proj2 Hsd). Qed.
End same.
Lemma same_doc_sym base rdf pm d evs evs' : same_doc base rdf pm d evs evs' → same_doc base rdf pm d evs' evs.
Proof. intros [H1 H2]. split; intros; symmetry; auto. Qed.
Lemma same_doc_trans base rdf pm d evs evs' evs'' : same_doc base rdf pm d evs evs' → same_doc base rdf pm d evs' evs'' → same_doc base rdf pm d evs evs''.
Proof. intros [H1 H2] [H3 H4]. split; intros; etrans; eauto. Qed.

Lemma says_ext base rdf S cl cl' sts sts' : (∀ id, cl id = cl' id) → (∀ id e, (id, e) ∈ sts → (id, e) ∈ sts') →
  (∀ x p y, says base rdf S cl sts x p y → says base rdf S cl' sts' x p y) ∧
  (∀ x p y, says_many base rdf S cl sts x p y → says_many base rdf S cl' sts' x p y) ∧
  (∀ x a y, refers base rdf cl sts x a y → refers base rdf cl' sts' x a y).
Proof.
  intros Hcl Hst.
  assert (∀ x a y, refers base rdf cl sts x a y → refers base rdf cl' sts' x a y) as Hr.
  { intros x a y (e & Hin & He & Hy). exists e. rewrite <- Hcl. split_and!; [by apply Hst|done|done]. }
  split_and!; [| |done].
  - intros x p y [x' p' y' ck q H1 H2 H3|x' a' p' y' ck c H1 H2 H3|x' p' p'' y' q ck tk H1 H2 H3 H4 H5|x' p' y' ck q H1 H2 H3|x' p' y' tk q H1 H2 H3];
      apply Hr in H1; rewrite ?Hcl in H2; rewrite ?Hcl in H3.
    + by eapply says_single.
    + by eapply says_alias.
    + by eapply says_member.
    + by eapply says_pair.
    + by eapply says_partner.
  - intros x p y [x' p' y' ck q H1 H2 H3|x' p' y' tk q H1 H2 H3]; apply Hr in H1; rewrite Hcl in H2.
    + by eapply says_many_here.
    + by eapply says_many_there.
Qed.

Section transfer.
Context (base rdf : pystr) (S : schema) (pm : list (name * name)) (d : dict) (h : heap) (evs evs' : list event).
Context (Hsd : same_doc base rdf pm d evs evs').
Lemma same_says_all :
  (∀ x p y, doc_says base rdf S pm evs d h x p y → doc_says base rdf S pm evs' d h x p y) ∧
  (∀ x p y, doc_says_many base rdf S pm evs d h x p y → doc_says_many base rdf S pm evs' d h x p y) ∧
  (∀ x p y, refers base rdf (class_in base rdf pm evs d h) (doc_statements base rdf pm evs d) x p y →
    refers base rdf (class_in base rdf pm evs' d h) (doc_statements base rdf pm evs' d) x p y).
Proof using Hsd. apply says_ext; [by apply same_class|]. intros id e Hin. by apply (same_statement _ _ _ _ _ _ Hsd). Qed.
Definition same_says := proj1 same_says_all.
Definition same_says_many := proj1 (proj2 same_says_all).
Definition same_refers := proj2 (proj2 same_says_all).
End transfer.
Section transfer.
Context (base rdf : pystr) (S : schema) (pm : list (name * name)) (d : dict) (h : heap) (evs evs' : list event).
Context (Hsd : same_doc base rdf pm d evs evs').
Lemma same_coherent : coherent base rdf S pm evs d h → coherent base rdf S pm evs' d h.
Proof using Hsd.
  pose proof (same_doc_sym _ _ _ _ _ _ Hsd) as Hsd'. intros [H1 H2]. split.
  - intros x p y y' Hy Hy'. eapply H1; eapply (same_says base rdf S pm d h evs' evs); done.
  - intros x p y Hy. rewrite <- (proj1 Hsd). eapply H2, (same_says base rdf S pm d h evs' evs); done.
Qed.
Lemma doc_statements_class evs0 : dict_alive d h → doc_statements base rdf pm evs0 d =
  statements base rdf (λ id, match class_in base rdf pm evs0 d h id with Some _ => true | None => false end) None evs0.
Proof.
  intros Hd. apply statements_ext. intros i. unfold known_id, class_in. destruct (declared_class base rdf pm evs0 i); [done|].
  destruct (assoc i d) as [v|] eqn:Ev; [|done]. destruct (Hd _ _ Ev) as (o & -> & [k Hk]). cbn. by rewrite Hk.
Qed.
Lemma same_compatible : dict_alive d h → compatible_doc base rdf S pm evs d h → compatible_doc base rdf S pm evs' d h.
Proof using Hsd.
  intros Hd Hc id e. rewrite <- (doc_statements_class evs' Hd), <- (same_statement _ _ _ _ _ _ Hsd), (doc_statements_class evs Hd). intros Hin.
  destruct (Hc id e Hin) as (ck & Hck & Hco). exists ck. rewrite <- (same_class _ _ _ _ _ _ Hsd). split; [done|].
  intros a Ha. specialize (Hco a Ha). destruct (resource rdf e) as [[|c r]|]; [done| |done].
  destruct c as [|c]; [done|]. do 6 (destruct c as [c|c|]; try done). intros tk Htk. apply Hco. by rewrite (same_class _ _ _ _ _ _ Hsd).
Qed.
Lemma same_ends : refers_to_ends base rdf S pm evs d h → refers_to_ends base rdf S pm evs' d h.
Proof using Hsd.
  intros He x a y ck Hr Hx. eapply He; [|by rewrite (same_class _ _ _ _ _ _ Hsd)].
  eapply (same_refers base rdf S); [by apply same_doc_sym|done].
Qed.
Lemma same_contained : self_contained base rdf pm evs d → self_contained base rdf pm evs' d.
Proof using Hsd. intros Hc id e Hin%(same_statement _ _ _ _ _ _ Hsd). rewrite <- (proj1 Hsd). by eapply Hc. Qed.
Lemma same_plain : attributes_plain base rdf S pm evs d → attributes_plain base rdf S pm evs' d.
Proof using Hsd. intros Hp id k a e r. rewrite <- (proj1 Hsd), <- (proj2 Hsd). apply Hp. Qed.
End transfer.

(** *** Reordered flat documents *)
Lemma assoc_perm {B} (l l' : list (pystr * B)) id : l ≡ₚ l' → NoDup (map fst l) → assoc id l = assoc id l'.
Proof.
  induction 1 as [|[k v] l l' Hp IH|[k v] [k' v'] l|l1 l2 l3 H1 IH1 H2 IH2]; intros Hn; [done| | |].
  - cbn [assoc]. cbn [map fst] in Hn. apply NoDup_cons in Hn as [_ Hn]. by rewrite IH.
  - cbn [assoc]. cbn [map fst] in Hn. apply NoDup_cons in Hn as [Hk Hn].
    destruct (str_eqb id k) eqn:E1, (str_eqb id k') eqn:E2; try done. apply str_eqb_eq in E1, E2. subst. exfalso. apply Hk. left.
  - rewrite IH1 by done. apply IH2. assert (map fst l1 ≡ₚ map fst l2) as <- by (by apply Permutation_map). done.
Qed.
Lemma declared_one base rdf pm i rest id : flat_ok base rdf i → uuid_of rdf (i_attrs i) = Some id →
  declared base rdf pm (item_events base i ++ rest) =
  match assoc (i_tag i) pm with Some k => [(id, k)] | None => [] end ++ declared base rdf pm rest.
Proof.
  intros Hok Hid. unfold declared, item_events. rewrite omap_app. f_equal. cbn [omap list_omap]. rewrite omap_app, omap_nil_iff.
  - cbn [app omap list_omap]. rewrite item_base. cbn [item_elem e_attrs]. rewrite Hid. cbn [mbind option_bind].
    rewrite item_local. by destruct (assoc (i_tag i) pm).
  - intros ev (p & Hp & Hev)%elem_of_list_In%in_flat_map. apply elem_of_list_In in Hp. destruct Hev as [<-|[<-|[]]]; [done|].
    rewrite pel_base. cbn [pel_elem e_attrs]. unfold uuid_of. destruct (proj2 Hok p Hp) as [-> ->]. done.
Qed.
Section flat.
Context (base rdf : pystr) (pm : list (name * name)) (d : dict) (root : elem) (Hroot : in_base base root = false).
Notation doc items := (flat base items ++ [EEnd root]).
Definition entry_of (i : item) : option (pystr * name) := id ← uuid_of rdf (i_attrs i); k ← assoc (i_tag i) pm; Some (id, k).
Lemma declared_items items : Forall (flat_ok base rdf) items → declared base rdf pm (doc items) = omap entry_of items.
Proof using Hroot.
  induction 1 as [|i items Hi Hr IH].
  { cbn [flat flat_map app]. unfold declared. cbn [omap list_omap]. by rewrite Hroot. }
  cbn [flat flat_map]. fold (flat base items). rewrite <- app_assoc. pose proof Hi as [[id Hid] _].
  rewrite (declared_one base rdf pm i _ id Hi Hid). rewrite IH. cbn [omap list_omap]. unfold entry_of at 2. rewrite Hid. cbn [mbind option_bind].
  by destruct (assoc (i_tag i) pm).
Qed.
Definition lines (k : pystr → bool) (i : item) : list (pystr * elem) :=
  match uuid_of rdf (i_attrs i) with Some id => if k id then map (λ p, (id, pel_elem base p)) (i_props i) else [] | None => [] end.
Lemma statements_items k items : Forall (flat_ok base rdf) items → statements base rdf k None (doc items) = flat_map (lines k) items.
Proof using Hroot.
  induction 1 as [|i items Hi Hr IH]; [done|].
  cbn [flat flat_map]. fold (flat base items). rewrite <- app_assoc. pose proof Hi as [[id Hid] _].
  rewrite (statements_item _ _ _ _ _ _ Hi Hid), IH. unfold lines at 2. by rewrite Hid.
Qed.
Lemma mine_other k id a i : uuid_of rdf (i_attrs i) ≠ Some id → mine base id a (lines k i) = [].
Proof using Type.
  intros Hne. unfold lines. destruct (uuid_of rdf (i_attrs i)) as [id'|]; [|done]. destruct (k id'); [|done].
  unfold mine. induction (i_props i) as [|p ps IH]; [done|]. cbn [map omap list_omap fst snd]. rewrite decide_False by naive_solver. done.
Qed.
Lemma mine_perm k id a items items' : items ≡ₚ items' → distinct_ids rdf items →
  mine base id a (flat_map (lines k) items) = mine base id a (flat_map (lines k) items').
Proof using Type.
  unfold distinct_ids. induction 1 as [|i l l' Hp IH|i j l|l1 l2 l3 H1 IH1 H2 IH2]; intros Hn; [done| | |].
  - cbn [flat_map]. unfold mine in *. rewrite !omap_app. f_equal. apply IH. cbn [omap list_omap] in Hn.
    destruct (uuid_of rdf (i_attrs i)); [by apply NoDup_cons in Hn as [_ Hn]|done].
  - cbn [flat_map]. rewrite !app_assoc. unfold mine. rewrite !omap_app. f_equal.
    change (mine base id a (lines k j) ++ mine base id a (lines k i) = mine base id a (lines k i) ++ mine base id a (lines k j)).
    destruct (decide (uuid_of rdf (i_attrs i) = Some id)) as [Ei|Ei]; [|by rewrite (mine_other k id a i), app_nil_r].
    rewrite (mine_other k id a j); [by rewrite app_nil_r|]. intros Ej. cbn [omap list_omap] in Hn. rewrite Ei, Ej in Hn.
    apply NoDup_cons in Hn as [Hn _]. apply Hn. left.
  - rewrite IH1 by done. apply IH2. assert (omap (λ i, uuid_of rdf (i_attrs i)) l1 ≡ₚ omap (λ i, uuid_of rdf (i_attrs i)) l2) as <-; [|done]. by rewrite H1.
Qed.
Lemma mine_props k id a i i' : same_item i i' → mine base id a (lines k i) = mine base id a (lines k i').
Proof using Type.
  intros (Ht & Ha & Hp). unfold lines. rewrite <- Ha. destruct (uuid_of rdf (i_attrs i)) as [id'|]; [|done]. destruct (k id'); [|done].
  assert (∀ ps, mine base id a (map (λ p, (id', pel_elem base p)) ps) =
    if decide (id' = id) then map (pel_elem base) (filter (λ p, after_last_dot (p_tag p) = a) ps) else []) as Hm.
  { intros ps. unfold mine. induction ps as [|p ps IH]; [by case_decide|]. cbn [map omap list_omap fst snd]. rewrite filter_cons, IH.
    assert (local base (pel_elem base p) = p_tag p) as -> by (unfold local, pel_elem; cbn [e_tag]; apply drop_app).
    destruct (decide (id' = id)) as [->|Hne]; [|by rewrite decide_False by naive_solver].
    destruct (decide (after_last_dot (p_tag p) = a)) as [E|E]; [by rewrite decide_True|by rewrite decide_False by naive_solver]. }
  by rewrite !Hm, Hp.
Qed.
Lemma entries_NoDup items : distinct_ids rdf items → NoDup (map fst (omap entry_of items)).
Proof using Type.
  unfold distinct_ids. induction items as [|i items IH]; [done|]. cbn [omap list_omap]. unfold entry_of at 1.
  destruct (uuid_of rdf (i_attrs i)) as [id|]; [|done]. cbn [mbind option_bind]. intros [Hi Hn]%NoDup_cons.
  destruct (assoc (i_tag i) pm) as [k|]; [|auto]. cbn [map fst]. apply NoDup_cons. split; [|auto].
  intros Hin. apply Hi. apply elem_of_list_fmap in Hin as ([id' k'] & E0 & Hin). cbn [fst] in E0. subst id'. apply elem_of_list_omap in Hin as (j & Hj & E).
  apply elem_of_list_omap. exists j. split; [done|]. unfold entry_of in E. destruct (uuid_of rdf (i_attrs j)); [|done]. cbn [mbind option_bind fst] in *.
  destruct (assoc (i_tag j) pm); [|done]. cbn in E. congruence.
Qed.
Lemma same_of items items' : Forall (flat_ok base rdf) items → Forall (flat_ok base rdf) items' →
  (∀ id, assoc id (reverse (omap entry_of items)) = assoc id (reverse (omap entry_of items'))) →
  (∀ k id a, mine base id a (flat_map (lines k) items) = mine base id a (flat_map (lines k) items')) →
  same_doc base rdf pm d (doc items) (doc items').
Proof using Hroot.
  intros Hok Hok' Hd Hm.
  assert (∀ id, declared_class base rdf pm (doc items) id = declared_class base rdf pm (doc items') id) as Hdc.
  { intros id. unfold declared_class. rewrite (declared_items items Hok), (declared_items items' Hok'). apply Hd. }
  split; [done|]. intros id a. unfold about, doc_statements. rewrite (statements_items _ items Hok), (statements_items _ items' Hok').
  change (mine base id a (flat_map (lines (known_id base rdf pm (doc items) d)) items) =
    mine base id a (flat_map (lines (known_id base rdf pm (doc items') d)) items')). rewrite <- Hm.
  f_equal. apply flat_map_ext. intros i. unfold lines. destruct (uuid_of rdf (i_attrs i)) as [x|]; [|done].
  assert (known_id base rdf pm (doc items) d x = known_id base rdf pm (doc items') d x) as ->; [|done].
  unfold known_id. by rewrite Hdc.
Qed.
Lemma same_item_ok i i' : same_item i i' → flat_ok base rdf i → flat_ok base rdf i'.
Proof using Type.
  intros (Ht & Ha & Hp) [Hu Hps]. split; [by rewrite <- Ha|]. intros p Hin. apply Hps.
  assert (p ∈ filter (λ q, after_last_dot (p_tag q) = after_last_dot (p_tag p)) (i_props i)) as Hf.
  { rewrite Hp. by apply elem_of_list_filter. }
  by apply elem_of_list_filter in Hf as [_ Hf].
Qed.
Lemma reordered_same items items' : Forall (flat_ok base rdf) items → distinct_ids rdf items → reordered items items' →
  Forall (flat_ok base rdf) items' ∧ same_doc base rdf pm d (doc items) (doc items').
Proof using Hroot.
  intros Hok Hn (mid & Hp & Hf).
  assert (Forall (flat_ok base rdf) mid) as Hok1 by (by rewrite <- Hp).
  assert (Forall (flat_ok base rdf) items') as Hok2.
  { clear Hp. induction Hf as [|i i' l l' Hi Hr IH]; [done|]. inversion Hok1; subst. constructor; [by eapply same_item_ok|auto]. }
  split; [done|]. apply (same_doc_trans _ _ _ _ _ (doc mid)).
  - apply same_of; [done..| |].
    + intros id. apply assoc_perm; [by rewrite !reverse_Permutation, Hp|].
      assert (map fst (reverse (omap entry_of items)) ≡ₚ map fst (omap entry_of items)) as ->; [|by apply entries_NoDup].
      apply Permutation_map. by rewrite reverse_Permutation.
    + intros k id a. by apply mine_perm.
  - assert (omap entry_of mid = omap entry_of items') as E1.
    { clear Hp Hok1 Hok2. induction Hf as [|i i' l l' (Ht & Ha & _) Hr IH]; [done|]. cbn [omap list_omap].
      assert (entry_of i = entry_of i') as -> by (unfold entry_of; by rewrite Ht, Ha). by rewrite IH. }
    apply same_of; [done..| |].
    + intros id. by rewrite E1.
    + intros k id a. clear Hp Hok1 Hok2 E1. induction Hf as [|i i' l l' Hi Hr IH]; [done|]. cbn [flat_map]. unfold mine in *. rewrite !omap_app, IH. f_equal.
      by apply mine_props.
Qed.
End flat.
