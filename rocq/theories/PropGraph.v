(** The references of a graph as the result of its history (the setters, add* and
    remove* methods of all classes). *)
From Coq Require Import String.
From stdpp Require Import prelude gmap.
From Verif Require Import PyStr PyHeap Schema Assoc AssocSpec HeapFacts LinksFacts AssocFacts CtorFacts History HistorySpec HistoryFacts TableSpec TableFacts
  Reader ReaderSpec Names TabCIM14 TabProfiles Tables Demo GraphCheck AdmCheck GraphSpec GraphFacts PropAssoc.
From Verif Require BlankFacts CreateFacts RegionFacts FrameFacts.

(** Slots do not go away. *)
Section slots.
Context (t : schema) (x : nat) (k : key).
Let I (h : heap) : Prop := is_Some (slot h x k).
Let W : nat → key → Prop := λ _ _, True.
Lemma keep_hset o k' v h : I h → W o k' → I (hset o k' v h).
Proof. intros Hs _. unfold I in *. rewrite RegionFacts.slot_hset_any. destruct (decide _) as [[= <- <-]|_]; [|done].
  destruct Hs as [w Hw]. rewrite decide_True; [done|]. by eapply HeapFacts.slot_cls. Qed.
Lemma keep_lset l xs h : I h → I (lset l xs h).
Proof. done. Qed.
Lemma keep_alloc h ck : I h → I (Heap (<[fresh_obj h := Obj ck ∅]> (h_objs h)) (h_lists h)) ∧ ∀ k', W (fresh_obj h) k'.
Proof.
  intros Hs. split; [|done]. unfold I. rewrite FrameFacts.slot_alloc; [done|]. apply FrameFacts.fresh_obj_alive. destruct Hs as [v Hv].
  by eapply HeapFacts.slot_cls.
Qed.
Notation pres := (FrameFacts.pres I).
Lemma keep_setattr f v p w : pres (setattr t f v p w).
Proof. by apply (FrameFacts.pres_setattr t I W keep_hset keep_lset). Qed.
Lemma keep_list_remove v y : pres (list_remove v y).
Proof. intros h Hh. unfold list_remove. destruct v; try done. destruct (h_lists h !! l); [|done]. case_match; [|done]. done. Qed.
Lemma keep_remove f v p xs : pres (remove t f v p xs).
Proof.
  intros h Hh. unfold remove. destruct v as [| | | | |o|]; try done. destruct (obj_prop t h o p) as [[]|]; try done; revert h Hh;
    apply FrameFacts.pres_for_each; intros y.
  - apply keep_setattr.
  - apply FrameFacts.pres_bind; [apply FrameFacts.pres_read|]. intros l. apply FrameFacts.pres_bind; [apply FrameFacts.pres_contains|]. intros b.
    apply FrameFacts.pres_bind; [destruct b; [|apply FrameFacts.pres_ret]; apply FrameFacts.pres_bind; [apply FrameFacts.pres_read|intros; apply keep_list_remove]|].
    intros _. apply FrameFacts.pres_bind; [apply FrameFacts.pres_read|intros; apply keep_list_remove].
  - apply FrameFacts.pres_bind; [apply keep_setattr|]. intros _. apply FrameFacts.pres_bind; [apply FrameFacts.pres_getattr|intros; apply keep_list_remove].
Qed.
Lemma keep_eval kw : pres (eval_kw kw).
Proof.
  induction kw as [|[n [v|ys]] kw IH]; cbn [eval_kw]; [apply FrameFacts.pres_ret|..].
  - apply FrameFacts.pres_bind; [done|]. intros. apply FrameFacts.pres_ret.
  - apply FrameFacts.pres_bind; [by intros h|]. intros. apply FrameFacts.pres_bind; [done|]. intros. apply FrameFacts.pres_ret.
Qed.
Lemma keep_op f c : pres (run_op t f c).
Proof.
  destruct c; cbn [run_op].
  - apply FrameFacts.pres_bind; [apply keep_eval|]. intros vs. apply FrameFacts.pres_bind; [|intros; apply FrameFacts.pres_ret].
    by apply (FrameFacts.pres_construct t I W keep_hset keep_lset keep_alloc).
  - apply keep_setattr.
  - apply FrameFacts.pres_bind; [by intros h|]. intros. apply keep_setattr.
  - by apply (FrameFacts.pres_add t I W keep_hset keep_lset).
  - apply keep_remove.
Qed.
Lemma keep_ops f cs h h' : is_Some (slot h x k) → run_ops t f cs h = (inl tt, h') → is_Some (slot h' x k).
Proof.
  intros Hs E. assert (pres (run_ops t f cs)) as Hp by (apply FrameFacts.pres_for_each; intros; apply keep_op).
  specialize (Hp h Hs). by rewrite E in Hp.
Qed.
End slots.
(** The classes of the tables have simple parameters. *)
Definition simple_b (c : cls) : bool :=
  forallb (λ pd, not_list_b pd.2) (c_params c) &&
  forallb (λ p, negb (str_eqb p (u "UUID")) && match assoc p (c_params c) with None | Some VNone => true | _ => false end) (ref_names c).
Lemma simple_b_ok c : simple_b c = true → simple_params c.
Proof.
  intros [H1 H2]%andb_prop. split.
  - apply Forall_forall. intros pd Hin. rewrite forallb_forall in H1. specialize (H1 pd (proj1 (elem_of_list_In _ _) Hin)). by destruct (pd.2).
  - intros p Hp. rewrite forallb_forall in H2. specialize (H2 p (proj1 (elem_of_list_In _ _) Hp)). apply andb_prop in H2 as [Hn Hd].
    split; [|destruct (assoc p (c_params c)) as [[]|]; auto; done]. intros ->. by vm_compute in Hn.
Qed.
Lemma simple_all : all_tables (λ t _, forallb simple_b t) = true.
Proof. vm_compute. reflexivity. Qed.
Lemma simple_mro t pm ck : (t, pm) ∈ tables → Forall simple_params (mro t ck).
Proof.
  intros Ht. pose proof (all_tables_ok _ _ _ simple_all Ht) as H. cbn in H. rewrite forallb_forall in H. apply Forall_forall. intros c Hc.
  apply simple_b_ok, H, elem_of_list_In. by eapply mro_sub.
Qed.
Section new.
Context (t : schema) (pm : list (name * name)) (Ht : (t, pm) ∈ tables).
Lemma graph_new f h G ck s tag : inv t h → core t h G → assoc tag pm = Some ck → ck ∉ unconstructible →
  ∃ h' G', run_op t (S f) (ONew ck [(u "UUID", AVal (VStr s))]) h = (inl tt, h') ∧ hist t h G [ONew ck [(u "UUID", AVal (VStr s))]] h' G' ∧ inv t h' ∧ core t h' G'.
Proof using Ht.
  intros Hi HG Hin%CreateFacts.assoc_in Hu. destruct (BlankFacts.map_class t pm tag ck Ht Hin) as (c & Hc & _).
  pose proof (BlankFacts.blank_one_ok t pm ck c Ht Hc) as Hb. rewrite decide_False in Hb by done. destruct Hb as (ws0 & Hb & _).
  assert (blank_new t ck [] [(u "UUID", VStr s)] = Some (ws0 ++ [(Pub (u "UUID"), BV (VStr s))])) as Hws.
  { unfold blank_new. rewrite Hc. by apply BlankFacts.blank_uuid_chain. }
  remember (ws0 ++ [(Pub (u "UUID"), BV (VStr s))]) as ws eqn:Ews. clear Ews Hb.
  destruct (construct_blank_Consistent t f h ck [] _ ws (proj1 Hi) Hws) as (h' & E & HC' & _ & Hcl & HV).
  set (o := fresh_obj h) in *.
  assert (∀ k, view h o k = None) as HVo.
  { intros k. destruct (view h o k) eqn:Ev; [|done]. apply view_Some_cls in Ev. unfold o in Ev. rewrite fresh_obj_cls in Ev. by destruct Ev. }
  assert (Forall (blank_ok (lookup_prop t ck)) ws) as Hok.
  { unfold blank_new in Hws. destruct (find_cls t ck); [|done]. by eapply blank_chain_ok. }
  assert (∀ p w, view h' o (Priv p) = Some w → ∃ b, w = bov b ∧ blank_ok (lookup_prop t ck) (Priv p, b)) as Hnew.
  { intros p w. rewrite HV, apply_writes_self, HVo. intros Hw. apply (last_write_ok (lookup_prop t ck)) in Hw as [|]; done. }
  assert (∀ o' k, o' ≠ o → view h' o' k = view h o' k) as HVn by (intros o' k Hne; rewrite HV; by apply apply_writes_ne).
  assert (∀ o' p, o' ≠ o → pkind t h' o' p = pkind t h o' p) as HK by (intros o' p Hne; unfold pkind; by rewrite Hcl, decide_False).
  assert (∀ p, pkind t h' o p = lookup_prop t ck p) as HKo by (intros p; unfold pkind; by rewrite Hcl, decide_True).
  assert (cls_of h o = None) as Hco by apply fresh_obj_cls.
  pose proof HG as (H1 & H2 & H3).
  assert (core t h' (created G o ck) ∧ inv t h') as [HG' Hi'].
  2: { exists h', (created G o ck). split; [|split; [|done]].
  - change (run_op t (S f) (ONew ck [(u "UUID", AVal (VStr s))]) h) with ((construct t (S f) ck [] [(u "UUID", VStr s)] ;;; ret tt) h). by erewrite bind_inl.
  - change [(u "UUID", AVal (VStr s))] with (plain_args [(u "UUID", VStr s)]).
    eapply (hs_new t h G o ck); [by rewrite <- H1|exact Hi'|exact HG'|]. rewrite app_nil_r, given_none; [constructor|by eapply simple_mro|].
    intros c' p Hc' Hp. pose proof (simple_mro t pm ck Ht) as Hsm. rewrite Forall_forall in Hsm. destruct (Hsm c' Hc') as [_ Hsp].
    cbn [assoc]. destruct (str_eqb p (u "UUID")) eqn:E'; [|done]. apply str_eqb_eq in E'. by destruct (Hsp p Hp). }
  split.
  - split; [intros o'; cbn [created g_cls]; rewrite Hcl; case_decide; [done|apply H1]|]. split; cbn [created g_one g_many].
    + intros x p y. rewrite H2. destruct (decide (x = o)) as [->|Hne]; [|by rewrite HK, HVn].
      rewrite HKo, HVo. split; [by intros [_ ?]|]. intros [Hs Hv]. destruct (Hnew _ _ Hv) as (b & Eb & Hbk). cbn [blank_ok] in Hbk.
      destruct (lookup_prop t ck p) as [[]|]; try done; by subst b.
    + intros x p y. rewrite H3. destruct (decide (x = o)) as [->|Hne]; [|setoid_rewrite HK; [|done]; by rewrite HVn].
      setoid_rewrite HKo. rewrite HVo. split; [by intros (? & ? & _ & ? & _)|]. intros (q & ys & Hk & Hv & Hy).
      destruct (Hnew _ _ Hv) as (b & Eb & Hbk). cbn [blank_ok] in Hbk. rewrite Hk in Hbk. subst b. injection Eb as ->. by apply elem_of_nil in Hy.
  - split; [done|]. intros x p q ys Hk Hv. destruct (decide (x = o)) as [->|Hne].
    + rewrite HKo in Hk. destruct (Hnew _ _ Hv) as (b & Eb & Hbk). cbn [blank_ok] in Hbk. rewrite Hk in Hbk. subst b. injection Eb as ->. constructor.
    + rewrite HK in Hk by done. rewrite HVn in Hv by done. by eapply (proj2 Hi).
Qed.
Lemma graph_step f h G c : inv t h → core t h G → links_op t pm (S (S (S f))) h c →
  ∃ h' G', run_op t (S (S (S f))) c h = (inl tt, h') ∧ hist t h G [c] h' G' ∧ inv t h' ∧ core t h' G'.
Proof using Ht.
  intros Hi HG Hl. pose proof (tables_distinct _ _ Ht) as Hde. destruct c as [ck kw|x p v|x p ys|x p ys|x p ys].
  - destruct Hl as [(s & -> & [tag Htag] & Hu)|(vs & -> & Hvs & Ha)]; [by eapply graph_new|].
    apply (ctor_op t Hde f h G ck vs); [by eapply simple_mro|done..].
  - destruct (graph_op t Hde f h G (OSet x p v) Hi HG I Hl) as (h' & G' & E & Hc & HG'). destruct (adm_op_inv t Hde f h (OSet x p v) Hi Hl) as (h2 & E2 & Hi2).
    rewrite E in E2. injection E2 as <-. exists h', G'. split; [done|]. split; [|done]. eapply hs_op; [exact Hi2|exact HG'|exact Hc|constructor].
  - destruct (graph_op t Hde f h G (OSetList x p ys) Hi HG I Hl) as (h' & G' & E & Hc & HG'). destruct (adm_op_inv t Hde f h (OSetList x p ys) Hi Hl) as (h2 & E2 & Hi2).
    rewrite E in E2. injection E2 as <-. exists h', G'. split; [done|]. split; [|done]. eapply hs_op; [exact Hi2|exact HG'|exact Hc|constructor].
  - destruct (graph_op t Hde f h G (OAdd x p ys) Hi HG I Hl) as (h' & G' & E & Hc & HG'). destruct (adm_op_inv t Hde f h (OAdd x p ys) Hi Hl) as (h2 & E2 & Hi2).
    rewrite E in E2. injection E2 as <-. exists h', G'. split; [done|]. split; [|done]. eapply hs_op; [exact Hi2|exact HG'|exact Hc|constructor].
  - destruct (graph_op t Hde f h G (ORemove x p ys) Hi HG I Hl) as (h' & G' & E & Hc & HG'). destruct (adm_op_inv t Hde f h (ORemove x p ys) Hi Hl) as (h2 & E2 & Hi2).
    rewrite E in E2. injection E2 as <-. exists h', G'. split; [done|]. split; [|done]. eapply hs_op; [exact Hi2|exact HG'|exact Hc|constructor].
Qed.
Lemma graph_steps f cs : ∀ h G, inv t h → core t h G → links_ops t pm (S (S (S f))) h cs →
  ∃ h' G', run_ops t (S (S (S f))) cs h = (inl tt, h') ∧ hist t h G cs h' G' ∧ inv t h' ∧ core t h' G'.
Proof using Ht.
  induction cs as [|c cs IH]; intros h G Hi HG Hl.
  { exists h, G. split; [done|]. split; [constructor|done]. }
  destruct Hl as [Hc Hl]. destruct (graph_step f h G c Hi HG Hc) as (h1 & G1 & E1 & Hch & Hi1 & HG1).
  destruct (IH h1 G1 Hi1 HG1 (Hl h1 E1)) as (h' & G' & E' & Hhi & Hi' & HG'). exists h', G'. split; [|split; [|done]].
  - unfold run_ops. cbn [for_each]. by erewrite bind_inl.
  - by apply (hist_app t h G [c] h1 G1 cs).
Qed.
End new.

(** Every graph is a table. *)
Definition graph_of (t : schema) (h : heap) : graph := Graph (cls_of h)
  (λ x p, match pkind t h x p, view h x (Priv p) with Some (POneMany _ | POneOne _), Some (OV (VRef y)) => Some y | _, _ => None end)
  (λ x p y, ∃ q ys, pkind t h x p = Some (PManyMany q) ∧ view h x (Priv p) = Some (OL ys) ∧ VRef y ∈ ys).
Lemma core_of t h : core t h (graph_of t h).
Proof.
  split; [done|]. split; [|done]. intros x p y. cbn [graph_of g_one]. unfold single.
  destruct (pkind t h x p) as [[]|]; destruct (view h x (Priv p)) as [[[]|]|]; (split; [|intros [??]]); try done; intros; simplify_eq; done.
Qed.

(** *** C95 *)
(** After any history of creations and admissible assignments, add* and remove*
    calls the references are those the history makes. *)
Theorem C95_graph t pm f h G cs : (t, pm) ∈ tables → Consistent t h → MMNoDup (pkind t h) (view h) → Shows t h G →
  links_ops t pm (S (S (S f))) h cs →
  ∃ h' G', run_ops t (S (S (S f))) cs h = (inl tt, h') ∧ history t G cs G' ∧ Shows t h' G'.
Proof.
  intros Ht HC Hm HG Hl. assert (inv t h) as Hi by by split.
  destruct (graph_steps t pm Ht f cs h G Hi (shows_core _ _ _ Hi HG) Hl) as (h' & G' & E & Hh & Hi' & HG').
  exists h', G'. split; [done|]. split; [by eapply hist_history|]. by apply core_shows.
Qed.
Print Assumptions C95_graph.

(** A single reference is the last value assigned to it. *)
Section last.
Context (t : schema).
Lemma step_keeps h G c h' G' x p q v : inv t h → core t h G → changes t G c G' → inv t h' → core t h' G' →
  pkind t h x p = Some (POneMany q) → g_one G x p = target v → ¬ mentions x v c → g_one G' x p = target v.
Proof.
  intros Hi HG Hch Hi' HG' Hk Hv Hm. pose proof Hi as [[Hwf HL] _]. assert (∀ o r, g_kind t G o r = pkind t h o r) as HK by (intros; by apply core_kind).
  assert (∀ o p' q', g_one G o p' = Some x → pkind t h o p' = Some (POneOne q') → q' ≠ p) as Hold.
  { intros o p' q' Ho Hko ->. apply HG in Ho as [_ Ho]. destruct (lk_one_one _ _ HL _ _ _ _ Hko Ho) as [|(? & [= <-] & [_ ?] & _)]; congruence. }
  destruct Hch; cbn [g_one]; try done.
  - unfold put. rewrite decide_False; [done|]. intros [_ ?%elem_of_list_singleton]. apply Hm. cbn [mentions]. done.
  - unfold put. rewrite decide_False; [done|]. intros [_ ?%elem_of_list_singleton]. apply Hm. cbn [mentions]. done.
  - rename x0 into y, p0 into r, q0 into z, v0 into w.
    assert (∀ o o' r', pkind t h' o r' = pkind t h o r' ∧ g_cls G o' = g_cls G o') as HK'.
    { intros o o' r'. split; [|done]. rewrite <- (core_kind t h' _ o r' HG'). rewrite <- HK. done. }
    assert (∀ o, target w = Some o → pkind t h o z = Some (POneOne r)) as Hpair.
    { intros o Ho. assert (g_one (Graph (g_cls G) (pair_up (g_one G) y r z (target w)) (g_many G)) y r = Some o) as Hyo.
      { cbn [g_one]. unfold pair_up. rewrite decide_True by done. done. }
      apply HG' in Hyo as [_ Hyo]. rewrite HK in H. rewrite <- (proj1 (HK' y y r)) in H.
      destruct (lk_one_one _ _ (proj2 (proj1 Hi')) _ _ _ _ H Hyo) as [|(? & [= <-] & [_ Ho'] & _)]; [done|]. by rewrite (proj1 (HK' o o z)) in Ho'. }
    unfold pair_up. rewrite decide_False by (intros [-> ->]; by apply Hm).
    rewrite decide_False by (intros [-> Hw%Hpair]; congruence).
    rewrite decide_False by (intros [-> Ho]; rewrite HK in H; by eapply Hold).
    rewrite decide_False; [done|]. intros [-> (o & Ho%Hpair & Hx)%bind_Some]. by eapply Hold.
  - unfold gather. rewrite decide_False by (intros [_ ?]; apply Hm; cbn [mentions]; by right).
    rewrite decide_False; [done|]. intros [Ho _]. apply Hm. cbn [mentions]. left. rewrite Hv in Ho. destruct v; cbn [target] in Ho; congruence.
  - unfold put. rewrite decide_False; [done|]. by intros [_ ?].
  - unfold put. rewrite decide_False; [done|]. by intros [_ ?].
Qed.
Lemma kind_keeps G c G' o p k : changes t G c G' → g_kind t G o p = Some k → g_kind t G' o p = Some k.
Proof. intros Hch. by destruct Hch. Qed.
Lemma hist_keeps h G cs h' G' x p q v : hist t h G cs h' G' → inv t h → core t h G → pkind t h x p = Some (POneMany q) →
  g_one G x p = target v → Forall (λ c, ¬ mentions x v c) cs → g_one G' x p = target v ∧ pkind t h' x p = Some (POneMany q).
Proof.
  induction 1 as [h G|h G h1 cs h' G' Hi1 HG1 _ IH|h G c h1 G1 cs h' G' Hi1 HG1 Hch _ IH|h G o ck vs h1 cs h' G' Ho Hi1 HG1 _ IH]; intros Hi HG Hk Hv Hm.
  - done.
  - apply IH; try done. rewrite <- (core_kind t h1 G) by done. by rewrite (core_kind t h G).
  - apply Forall_cons in Hm as [Hm1 Hm]. apply IH; try done.
    + rewrite <- (core_kind t h1 G1) by done. eapply kind_keeps; [exact Hch|]. by rewrite (core_kind t h G).
    + exact (step_keeps h G c h1 G1 x p q v Hi HG Hch Hi1 HG1 Hk Hv Hm1).
  - assert (x ≠ o) as Hne. { intros ->. rewrite <- (core_kind t h G) in Hk by done. unfold g_kind in Hk. by rewrite Ho in Hk. }
    apply Forall_cons in Hm as [_ Hm]. apply IH; try done.
    + rewrite <- (core_kind t h1 _ x p HG1). rewrite <- (core_kind t h G) in Hk by done. unfold g_kind in *. cbn [created g_cls]. by rewrite decide_False.
    + apply Forall_app. split; [|done]. apply Forall_forall. intros c Hc. apply elem_of_list_fmap in Hc as ([p' v'] & -> & _). cbn [mentions]. congruence.
Qed.
End last.
Theorem C95_last t pm f h x p q v cs : (t, pm) ∈ tables → Consistent t h → MMNoDup (pkind t h) (view h) →
  pkind t h x p = Some (POneMany q) → links_ops t pm (S (S (S f))) h (OSet x p v :: cs) → Forall (λ c, ¬ mentions x v c) cs →
  ∃ h', run_ops t (S (S (S f))) (OSet x p v :: cs) h = (inl tt, h') ∧ view h' x (Priv p) = Some (OV v).
Proof.
  intros Ht HC Hn Hk [Hl1 Hl2] Hm. assert (inv t h) as Hi by by split. pose proof (core_of t h) as HG. set (G := graph_of t h) in *.
  pose proof Hl1 as Ha. cbn [links_op adm_op] in Ha. unfold adm_set in Ha. rewrite Hk in Ha. destruct Ha as [Hs Hf].
  destruct (graph_single t (S (S f)) h G x p q v Hi HG Hk Hs Hf) as (h1 & E1 & HG1).
  destruct (adm_op_inv t (tables_distinct _ _ Ht) f h (OSet x p v) Hi Hl1) as (h1' & E1' & Hi1).
  assert (h1' = h1) as -> by (cbn [run_op] in E1'; congruence).
  destruct (graph_steps t pm Ht f cs h1 _ Hi1 HG1 (Hl2 h1 E1')) as (h' & G' & E' & Hh & Hi' & HG').
  destruct (hist_keeps t _ _ _ _ _ x p q v Hh Hi1 HG1) as [Hv' Hk'].
  - rewrite <- (core_kind t h1 _ x p HG1). rewrite <- Hk. by apply (core_kind t h G).
  - cbn [g_one]. unfold put. rewrite decide_True; [done|]. split; [done|]. by apply elem_of_list_singleton.
  - done.
  - assert (run_ops t (S (S (S f))) (OSet x p v :: cs) h = (inl tt, h')) as Er by (unfold run_ops; cbn [for_each]; by erewrite bind_inl).
    exists h'. split; [done|]. assert (has_slot h' x p) as Hs' by (eapply keep_ops; [exact Hs|exact Er]).
    destruct (slotful_view h' x p (proj1 (proj1 Hi')) Hs') as [w Hw].
    destruct (single_view t h' x p w Hi') as [-> |[y ->]]; [by rewrite Hk'|done|..].
    + destruct (fits_ref t h x p q v Hf) as [-> |[y ->]]; [done|]. cbn [target] in Hv'. apply HG' in Hv' as [_ Hv']. congruence.
    + rewrite (proj2 (proj1 (proj2 HG') x p y)) in Hv' by (split; [by rewrite Hk'|done]). destruct v; cbn [target] in Hv'; congruence.
Qed.
Print Assumptions C95_last.

(** An assignment to the single end of a one-to-many association is undone by
    assigning the former value: everything is as before, up to the order in
    the collections. *)
Lemma filter_gone (a : val) (ys : list val) : a ∉ ys → filter (λ y, y ≠ a) ys = ys.
Proof.
  induction ys as [|b ys IH]; intros Hn; [done|]. apply not_elem_of_cons in Hn as [Hb Hn]. rewrite filter_cons_True by congruence. by rewrite IH.
Qed.
Lemma filter_last (a : val) (ys : list val) : filter (λ y, y ≠ a) (filter (λ y, y ≠ a) ys ++ [a]) = filter (λ y, y ≠ a) ys.
Proof.
  rewrite filter_app, filter_gone, filter_cons_False, filter_nil, app_nil_r; [done|intros H; by apply H|].
  rewrite elem_of_list_filter. by intros [? _].
Qed.
Lemma filter_back (a : val) (ys : list val) : NoDup ys → a ∈ ys → ys ≡ₚ filter (λ y, y ≠ a) ys ++ [a].
Proof.
  induction ys as [|b ys IH]; intros Hd Hin; [by apply elem_of_nil in Hin|]. apply NoDup_cons in Hd as [Hb Hd].
  destruct (decide (b = a)) as [->|Hne].
  - rewrite filter_cons_False by (intros H; by apply H). rewrite filter_gone by done. by rewrite Permutation_app_comm.
  - rewrite filter_cons_True by done. apply elem_of_cons in Hin as [->|Hin]; [done|]. simpl. f_equiv. by apply IH.
Qed.
Theorem C95_undo t f h x p q w v : Consistent t h → pkind t h x p = Some (POneMany q) →
  view h x (Priv p) = Some (OV w) → fits_one_many t h x p q v →
  ∃ h', run_ops t (S f) [OSet x p v; OSet x p w] h = (inl tt, h') ∧ same_classes h h' ∧
    (∀ o k, same_members (view h o k) (view h' o k)) ∧ Consistent t h'.
Proof.
  intros HC Hk Hw Hf. assert (has_slot h x p) as Hs by (unfold has_slot; destruct (slot h x (Priv p)) eqn:E; [done|unfold view in Hw; by rewrite E in Hw]).
  destruct (C01_set_single t f h x p q v HC Hk Hs Hf) as (h1 & E1 & Hc1 & HS1 & HC1).
  assert (∀ o r, pkind t h1 o r = pkind t h o r) as HK by (intros; unfold pkind; by rewrite Hc1).
  pose proof HC as [Hwf HL].
  assert (w = VNone ∨ ∃ y ys, w = VRef y ∧ ends_one_many (pkind t h) x p y q ∧ view h y (Priv q) = Some (OL ys) ∧ VRef x ∈ ys ∧ NoDup ys) as Hw'.
  { destruct (lk_single _ _ HL _ _ _ _ Hk Hw) as [[= ->]|(y & ys & [= ->] & He & Hy & Hin)]; [by left|right]. exists y, ys.
    destruct (proj2 He) as (p' & Hkp & _). destruct (lk_coll _ _ HL _ _ _ _ Hkp Hy) as (? & [= <-] & ? & _). done. }
  assert (fits_one_many t h1 x p q w) as Hf1.
  { destruct Hw' as [->|(y & ys & -> & He & Hy & _)]; [by left|right]. exists y.
    destruct (decide (v = VRef y)) as [->|Hne].
    - eexists. split; [done|]. split; [eapply ends_kind; [intros; symmetry; apply HK|exact He]|]. by apply (ss_new _ _ _ _ _ _ HS1 y ys).
    - eexists. split; [done|]. split; [eapply ends_kind; [intros; symmetry; apply HK|exact He]|]. by apply (ss_old _ _ _ _ _ _ HS1 y ys). }
  destruct (C01_set_single t f h1 x p q w HC1) as (h2 & E2 & Hc2 & HS2 & HC2).
  { by rewrite HK. }
  { pose proof (ss_self _ _ _ _ _ _ HS1) as H. unfold has_slot. destruct (slot h1 x (Priv p)) eqn:E; [done|unfold view in H; by rewrite E in H]. }
  { done. }
  exists h2. split_and!.
  - unfold run_ops. cbn [for_each run_op]. erewrite bind_inl; [|exact E1]. by erewrite bind_inl.
  - intros o. by rewrite Hc2, Hc1.
  - intros o k. destruct (decide ((o, k) = (x, Priv p))) as [[= -> ->]|Hne].
    { left. by rewrite (ss_self _ _ _ _ _ _ HS2). }
    destruct (decide (k = Priv q)) as [->|Hkq].
    2: { left. rewrite (ss_frame _ _ _ _ _ _ HS2 o k Hne) by done. by apply (ss_frame _ _ _ _ _ _ HS1 o k Hne). }
    pose proof (ss_self _ _ _ _ _ _ HS1) as Hx1.
    destruct (decide (v = VRef o)) as [->|Hv]; destruct (decide (w = VRef o)) as [->|Hwo].
    + destruct Hw' as [|(y & ys & [= <-] & _ & Hy & Hin & Hd)]; [done|].
      pose proof (ss_new _ _ _ _ _ _ HS1 o ys eq_refl Hy) as H1. pose proof (ss_new _ _ _ _ _ _ HS2 o _ eq_refl H1) as H2.
      rewrite filter_last in H2. right. eexists _, _. split; [done|]. split; [done|]. by apply filter_back.
    + destruct Hf as [|(y & ys & [= <-] & He & Hy)]; [done|].
      pose proof (ss_new _ _ _ _ _ _ HS1 o ys eq_refl Hy) as H1. pose proof (ss_old _ _ _ _ _ _ HS2 o _ Hx1 Hwo H1) as H2.
      rewrite filter_last in H2. left. rewrite H2, Hy, filter_gone; [done|]. intros Hin.
      destruct (proj2 He) as (p' & Hkp & Hr). destruct (lk_coll _ _ HL _ _ _ _ Hkp Hy) as (? & [= <-] & _ & Hm).
      destruct (Hm _ Hin) as (x' & p2 & [= <-] & (_ & p3 & Hkp3 & Hr3) & Hx2). rewrite Hkp in Hkp3. injection Hkp3 as <-.
      rewrite (resolves_fun _ _ _ _ _ Hr3 Hr) in Hx2. rewrite Hw in Hx2. congruence.
    + destruct Hw' as [|(y & ys & [= <-] & _ & Hy & Hin & Hd)]; [done|].
      pose proof (ss_old _ _ _ _ _ _ HS1 o ys Hw Hv Hy) as H1. pose proof (ss_new _ _ _ _ _ _ HS2 o _ eq_refl H1) as H2.
      rewrite (filter_gone _ (filter _ _)) in H2 by (rewrite elem_of_list_filter; by intros [? _]).
      right. eexists _, _. split; [done|]. split; [done|]. by apply filter_back.
    + left. rewrite (ss_frame _ _ _ _ _ _ HS2 o _ Hne) by (intros _; split; [done|rewrite Hx1; congruence]).
      apply (ss_frame _ _ _ _ _ _ HS1 o _ Hne). intros _. split; [done|rewrite Hw; congruence].
  - done.
Qed.
Print Assumptions C95_undo.

(** So is an assignment to an end of a one-to-one association, if it takes no
    partner away from another object. *)
Theorem C95_undo_pair t f h x p q w v : Consistent t h → p ≠ q → pkind t h x p = Some (POneOne q) →
  view h x (Priv p) = Some (OV w) → fits_one_one t h x p q v →
  (∀ y z, v = VRef y → view h y (Priv q) = Some (OV (VRef z)) → z = x) →
  ∃ h', run_ops t (S (S f)) [OSet x p v; OSet x p w] h = (inl tt, h') ∧ same_classes h h' ∧
    (∀ o k, view h' o k = view h o k) ∧ Consistent t h'.
Proof.
  intros HC Hpq Hk Hw Hf Hfree.
  assert (∀ g o r a, view g o (Priv r) = Some a → has_slot g o r) as Hsl.
  { intros g o r a Ha. unfold has_slot. destruct (slot g o (Priv r)) eqn:E; [done|unfold view in Ha; by rewrite E in Ha]. }
  destruct (C02_set_pair t f h x p q v HC Hpq Hk (Hsl _ _ _ _ Hw) Hf) as (h1 & E1 & Hc1 & HS1 & HC1).
  assert (∀ o r, pkind t h1 o r = pkind t h o r) as HK by (intros; unfold pkind; by rewrite Hc1).
  pose proof HC as [Hwf HL]. pose proof (sp_self _ _ _ _ _ _ HS1) as Hx1.
  assert (w = VNone ∨ ∃ y, w = VRef y ∧ ends_one_one (pkind t h) x p y q ∧ view h y (Priv q) = Some (OV (VRef x))) as Hw'.
  { destruct (lk_one_one _ _ HL _ _ _ _ Hk Hw) as [[= ->]|(y & [= ->] & He & Hy)]; [by left|right]. by exists y. }
  assert (∀ y, w = VRef y → view h1 y (Priv q) = Some (OV (VRef x)) ∨ view h1 y (Priv q) = Some (OV VNone)) as Hy1.
  { intros y ->. destruct (decide (v = VRef y)) as [->|Hne]; [left; by apply (sp_new _ _ _ _ _ _ HS1)|right; by apply (sp_old _ _ _ _ _ _ HS1)]. }
  assert (fits_one_one t h1 x p q w) as Hf1.
  { destruct Hw' as [->|(y & -> & He & Hy)]; [by left|right]. exists y. split; [done|]. split; [by unfold ends_one_one; rewrite !HK|].
    destruct (Hy1 y eq_refl) as [H|H]; by eapply Hsl. }
  destruct (C02_set_pair t f h1 x p q w HC1 Hpq) as (h2 & E2 & Hc2 & HS2 & HC2).
  { by rewrite HK. }
  { by eapply Hsl. }
  { done. }
  exists h2. split_and!.
  - unfold run_ops. cbn [for_each run_op]. erewrite bind_inl; [|exact E1]. by erewrite bind_inl.
  - intros o. by rewrite Hc2, Hc1.
  - intros o k. destruct (decide ((o, k) = (x, Priv p))) as [[= -> ->]|Hne].
    { by rewrite (sp_self _ _ _ _ _ _ HS2). }
    destruct (decide (k = Priv q)) as [->|Hkq].
    + destruct (decide (w = VRef o)) as [->|Hwo].
      { rewrite (sp_new _ _ _ _ _ _ HS2 o eq_refl). destruct Hw' as [|(y & [= <-] & _ & Hy)]; [done|]. by rewrite Hy. }
      destruct (decide (v = VRef o)) as [->|Hv].
      * rewrite (sp_old _ _ _ _ _ _ HS2 o Hx1 Hwo). destruct Hf as [|(y & [= <-] & [_ Hko] & Hso)]; [done|].
        destruct (slotful_view h o q Hwf Hso) as [a Ha]. rewrite Ha.
        destruct (lk_one_one _ _ HL _ _ _ _ Hko Ha) as [->|(z & -> & _ & Hz)]; [done|]. pose proof (Hfree o z eq_refl Ha). subst z. congruence.
      * rewrite (sp_frame _ _ _ _ _ _ HS2 o _ Hne); [|intros _; split; [done|rewrite Hx1; congruence]|congruence].
        apply (sp_frame _ _ _ _ _ _ HS1 o _ Hne); [intros _; split; [done|rewrite Hw; congruence]|congruence].
    + rewrite (sp_frame _ _ _ _ _ _ HS2 o _ Hne); [|done|].
      * apply (sp_frame _ _ _ _ _ _ HS1 o _ Hne); [done|]. intros -> y Hv Hy. apply Hne. by rewrite (Hfree y o Hv Hy).
      * intros -> y Hy H. destruct (Hy1 y Hy) as [H'|H']; rewrite H' in H; [|done]. injection H as <-. done.
  - done.
Qed.
Print Assumptions C95_undo_pair.

(** In general it is not: attaching power flow 5 to terminal 0 and detaching it
    again leaves the terminal without its power flow 4. *)
Theorem C95_undo_refuted : ∃ h',
  pkind cim14 g14 5 n_Terminal = Some (POneOne n_SvPowerFlow) ∧ view g14 5 (Priv n_Terminal) = Some (OV VNone) ∧
  fits_one_one cim14 g14 5 n_Terminal n_SvPowerFlow (VRef 0) ∧
  run_ops cim14 20 [OSet 5 n_Terminal (VRef 0); OSet 5 n_Terminal VNone] g14 = (inl tt, h') ∧
  view g14 4 (Priv n_Terminal) = Some (OV (VRef 0)) ∧ view h' 4 (Priv n_Terminal) = Some (OV VNone).
Proof.
  exists (snd (run_ops cim14 20 [OSet 5 n_Terminal (VRef 0); OSet 5 n_Terminal VNone] g14)).
  split; [compute_now|]. split; [compute_now|]. split; [apply fits_oo_b_ok; compute_now|]. split; [apply run_ok; compute_now|]. split; compute_now.
Qed.
Print Assumptions C95_undo_refuted.
Example C95_undo_example :
  Consistent cim14 g14 ∧ pkind cim14 g14 0 n_ConnectivityNode = Some (POneMany n_Terminals) ∧
  view g14 0 (Priv n_ConnectivityNode) = Some (OV (VRef 2)) ∧ fits_one_many cim14 g14 0 n_ConnectivityNode n_Terminals (VRef 3) ∧
  view g14 2 (Priv n_Terminals) = Some (OL [VRef 0; VRef 1]) ∧
  view (snd (run_ops cim14 20 [OSet 0 n_ConnectivityNode (VRef 3); OSet 0 n_ConnectivityNode (VRef 2)] g14)) 2 (Priv n_Terminals) = Some (OL [VRef 1; VRef 0]).
Proof.
  split; [exact g14_Consistent|]. split; [compute_now|]. split; [compute_now|]. split; [apply fits_om_b_ok; compute_now|]. split; compute_now.
Qed.
Example C95_undo_pair_example :
  Consistent cim14 g14 ∧ n_Terminal ≠ n_SvPowerFlow ∧ pkind cim14 g14 4 n_Terminal = Some (POneOne n_SvPowerFlow) ∧
  view g14 4 (Priv n_Terminal) = Some (OV (VRef 0)) ∧ fits_one_one cim14 g14 4 n_Terminal n_SvPowerFlow (VRef 1) ∧
  view g14 1 (Priv n_SvPowerFlow) = Some (OV VNone).
Proof.
  split; [exact g14_Consistent|]. split; [by apply str_eqb_neq|]. split; [compute_now|]. split; [compute_now|].
  split; [apply fits_oo_b_ok; compute_now|]. compute_now.
Qed.

(** A program that creates two terminals (0, 1), two nodes (2, 3) and a power
    flow (4), moves them about, and creates a second power flow (5) that takes
    the place of the first. *)
Definition new_b (pm : list (name * name)) (ck : name) (kw : list (name * arg)) : bool :=
  match kw with
  | [(n, AVal (VStr s))] =>
      str_eqb n (u "UUID") && existsb (λ e, match assoc e.1 pm with Some c => str_eqb c ck | None => false end) pm && negb (existsb (str_eqb ck) unconstructible)
  | _ => false
  end.
Definition plain_b (kw : list (name * arg)) : bool :=
  forallb (λ na, match na.2 with AVal (VList _) | AList _ => false | AVal _ => true end) kw.
Definition links_op_b (t : schema) (pm : list (name * name)) (fuel : nat) (h : heap) (c : op) : bool :=
  match c with
  | ONew ck kw => new_b pm ck kw || (plain_b kw && adm_op_b t fuel h c)
  | c => adm_op_b t fuel h c
  end.
Fixpoint links_ops_b (t : schema) (pm : list (name * name)) (fuel : nat) (h : heap) (cs : list op) : bool :=
  match cs with
  | [] => true
  | c :: r => links_op_b t pm fuel h c && match run_op t fuel c h with (inl _, h') => links_ops_b t pm fuel h' r | _ => true end
  end.
Lemma plain_b_ok kw : plain_b kw = true → ∃ vs, kw = plain_args vs ∧ Forall (λ nv, not_list nv.2) vs.
Proof.
  induction kw as [|[n [v|l]] kw IH]; [by exists []| |done]. cbn [plain_b forallb snd]. intros [Hv (vs & -> & Hvs)%IH]%andb_prop.
  exists ((n, v) :: vs). split; [done|]. constructor; [|done]. cbn [snd]. by destruct v.
Qed.
Lemma links_op_b_ok t pm fuel h c : links_op_b t pm fuel h c = true → links_op t pm fuel h c.
Proof.
  destruct c as [ck kw|x p v|x p v|x p v|x p v]; cbn [links_op_b links_op]; try apply (adm_op_b_ok t fuel h).
  intros [H|[H1 H2]%andb_prop]%orb_prop; [left|right].
  2: { destruct (plain_b_ok kw H1) as (vs & -> & Hvs). exists vs. split; [done|]. split; [done|]. by apply adm_op_b_ok. }
  destruct kw as [|[n [[]|]] []]; try done. cbn [new_b] in H. apply andb_prop in H as [[->%str_eqb_eq H2]%andb_prop H3]. eexists. split; [done|]. split.
  - apply existsb_exists in H2 as (e & _ & H2). exists e.1. destruct (assoc e.1 pm); [|done]. by apply str_eqb_eq in H2 as ->.
  - intros Hin%elem_of_list_In. apply negb_true_iff in H3. assert (existsb (str_eqb ck) unconstructible = true) as H4; [|congruence].
    apply existsb_exists. exists ck. split; [done|]. by apply str_eqb_eq.
Qed.
Lemma links_ops_b_ok t pm fuel cs : ∀ h, links_ops_b t pm fuel h cs = true → links_ops t pm fuel h cs.
Proof.
  induction cs as [|c cs IH]; intros h; [done|]. cbn [links_ops_b links_ops]. intros [H1%links_op_b_ok H2]%andb_prop.
  split; [done|]. intros h' E. rewrite E in H2. by apply IH.
Qed.
Definition moves14 : list op := [
  ONew n_CIM14_IEC61970_Core_Terminal_Terminal [(u "UUID", AVal (VStr (u "a")))];
  ONew n_CIM14_IEC61970_Core_Terminal_Terminal [(u "UUID", AVal (VStr (u "b")))];
  ONew n_CIM14_IEC61970_Core_ConnectivityNode_ConnectivityNode [(u "UUID", AVal (VStr (u "c")))];
  ONew n_CIM14_IEC61970_Core_ConnectivityNode_ConnectivityNode [(u "UUID", AVal (VStr (u "d")))];
  ONew n_CIM14_IEC61970_StateVariables_SvPowerFlow_SvPowerFlow [(u "UUID", AVal (VStr (u "e")))];
  OSet 0 n_ConnectivityNode (VRef 2);
  OSet 4 n_Terminal (VRef 0);
  OAdd 2 n_Terminals [1];
  OAdd 3 n_Terminals [0; 1];
  ORemove 3 n_Terminals [1];
  OSetList 2 n_Terminals [1];
  OSet 1 n_SvPowerFlow (VRef 4);
  ONew n_CIM14_IEC61970_StateVariables_SvPowerFlow_SvPowerFlow [(n_Terminal, AVal (VRef 1)); (u "UUID", AVal (VStr (u "f")))]].
Definition no_refs : graph := Graph (λ _, None) (λ _ _, None) (λ _ _ _, False).
Example C95_graph_example :
  (cim14, cim14_map) ∈ tables ∧ Consistent cim14 heap_empty ∧ MMNoDup (pkind cim14 heap_empty) (view heap_empty) ∧ Shows cim14 heap_empty no_refs ∧
  links_ops cim14 cim14_map 20 heap_empty moves14 ∧
  (let h' := snd (run_ops cim14 20 moves14 heap_empty) in
   view h' 3 (Priv n_Terminals) = Some (OL [VRef 0]) ∧ view h' 1 (Priv n_SvPowerFlow) = Some (OV (VRef 5)) ∧ view h' 4 (Priv n_Terminal) = Some (OV VNone)).
Proof.
  split; [apply elem_of_list_here|]. assert (inv cim14 heap_empty) as Hi by (apply inv_b_ok; vm_compute; reflexivity).
  split; [apply Hi|]. split; [apply Hi|].
  split; [apply core_shows; [done|]; split; [done|]; split; intros x p y; [by split; [|intros [_ ?]]|by split; [|intros (? & ? & _ & ? & _)]]|].
  split; [apply links_ops_b_ok; vm_compute; reflexivity|]. split; [compute_now|]. split; compute_now.
Qed.
Example C95_last_example :
  (cim14, cim14_map) ∈ tables ∧ Consistent cim14 g14 ∧ MMNoDup (pkind cim14 g14) (view g14) ∧ pkind cim14 g14 0 n_ConnectivityNode = Some (POneMany n_Terminals) ∧
  links_ops cim14 cim14_map 20 g14 [OSet 0 n_ConnectivityNode (VRef 3); OSetList 2 n_Terminals [1]; OAdd 3 n_Terminals [1]; OSet 4 n_Terminal (VRef 1)] ∧
  Forall (λ c, ¬ mentions 0 (VRef 3) c) [OSetList 2 n_Terminals [1]; OAdd 3 n_Terminals [1]; OSet 4 n_Terminal (VRef 1)].
Proof.
  split; [apply elem_of_list_here|]. split; [exact g14_Consistent|]. split; [apply g14_inv|]. split; [compute_now|].
  split; [apply links_ops_b_ok; vm_compute; reflexivity|].
  repeat constructor; cbn [mentions]; [intros [|?%elem_of_list_singleton]; done|by intros ?%elem_of_list_singleton|done].
Qed.
