(** Loops over lists.  [iter_val] reads the elements once; here it is shown that
    the loops of the code model that use it behave as Python's loops, which look
    at the list anew in every turn ([live_from]). *)
From Coq Require Import Lia.
From stdpp Require Import prelude gmap.
From Verif Require Import PyStr PyHeap Schema Assoc AssocSpec HeapFacts.

(** Code that does not change an existing list. *)
Definition kept {A} (m : M A) : Prop := ∀ h l xs, h_lists h !! l = Some xs → h_lists (snd (m h)) !! l = Some xs.
Lemma kept_ret {A} (a : A) : kept (ret a).
Proof. by intros h. Qed.
Lemma kept_raise {A} e : kept (raise (A:=A) e).
Proof. by intros h. Qed.
Lemma kept_bind {A B} (m : M A) (f : A → M B) : kept m → (∀ a, kept (f a)) → kept (bind m f).
Proof. intros Hm Hf h l xs Hl. unfold bind. specialize (Hm h l xs Hl). destruct (m h) as [[a|e] h']; [by apply Hf|done]. Qed.
Lemma kept_for_each {A} (xs : list A) body : (∀ x, kept (body x)) → kept (for_each xs body).
Proof. intros Hb. induction xs as [|x xs IH]; cbn [for_each]; [by apply kept_ret|]. by apply kept_bind. Qed.
Lemma kept_read v k : kept (read_key v k).
Proof. intros h l xs Hl. unfold read_key. destruct v; try done. by destruct (slot h o k). Qed.
Lemma kept_write v k w : kept (write_key v k w).
Proof. intros h l xs Hl. unfold write_key. destruct v; try done. by destruct (h_objs h !! o). Qed.
Lemma kept_new_list ys : kept (new_list ys).
Proof.
  intros h l xs Hl. unfold new_list. cbn [snd]. rewrite lists_lset_ne; [done|]. intros <-. by rewrite fresh_list_None in Hl.
Qed.
Lemma kept_iter v : kept (iter_val v).
Proof. intros h l xs Hl. unfold iter_val. destruct v as [| | | | | |l']; try done. by destruct (h_lists h !! l'). Qed.
Lemma kept_getattr S v p : kept (getattr S v p).
Proof.
  intros h l xs Hl. unfold getattr. destruct v; try done. destruct (obj_prop S h o p) as [[]|]; try by apply kept_read.
  apply kept_bind; [apply kept_read| |done]. intros w h' l' ys Hl'. by case_decide.
Qed.
(** After [v.k = None] the attribute is None. *)
Lemma kept_clear v k (X : val → M unit) :
  kept (write_key v k VNone ;;; let* now := read_key v k in if decide (now = VNone) then ret tt else X now).
Proof.
  intros h l xs Hl. destruct v as [| | | | |o|]; try done. unfold bind. cbn [write_key].
  destruct (h_objs h !! o) as [ob|] eqn:E; [|done]. cbn [read_key].
  rewrite slot_hset by (unfold cls_of; rewrite E; by eexists). by rewrite decide_True.
Qed.
(** [x.p = None] *)
Lemma kept_set_None S f : ∀ v p, kept (setattr S f v p VNone).
Proof.
  induction f as [|f IH]; intros v p h l xs Hl; cbn [setattr]; [done|]. destruct v as [| | | | |o|]; try done.
  assert (∀ q, kept (let* cur := read_key (VRef o) (Priv p) in let* xs := iter_val cur in
    for_each xs (λ x, setattr S f x q VNone) ;;; let* ys := iter_val VNone in
    for_each ys (λ y, write_key y (Priv q) (VRef o)) ;;; write_key (VRef o) (Priv p) VNone)) as Hmany.
  { intros q. apply kept_bind; [apply kept_read|intros cur]. apply kept_bind; [apply kept_iter|intros ys].
    apply kept_bind; [by apply kept_for_each|intros _]. by intros h'. }
  destruct (obj_prop S h o p) as [[q|q|q|q| |q|t c]|]; revert h l xs Hl.
  - apply kept_bind; [apply kept_read|intros cur]. apply kept_bind; [|intros _; apply kept_clear].
    case_decide; [apply kept_ret|]. apply kept_bind; [apply kept_getattr|intros own]. apply kept_bind; [apply kept_getattr|intros lst].
    apply kept_bind; [apply kept_iter|intros ys]. apply kept_bind; [apply kept_new_list|intros fl]. apply kept_write.
  - apply Hmany.
  - apply kept_bind; [apply kept_read|intros cur]. apply kept_bind; [|intros _; apply kept_clear].
    case_decide; [apply kept_ret|apply kept_write].
  - apply kept_bind; [apply kept_read|intros cur]. apply kept_bind; [apply kept_iter|intros ys].
    apply kept_bind; [|intros _; by intros h'].
    apply kept_for_each. intros x. apply kept_bind; [apply kept_getattr|intros lst]. apply kept_bind; [apply kept_iter|intros qs].
    apply kept_bind; [apply kept_new_list|intros fl]. apply kept_bind; [apply kept_read|intros cur']. apply kept_write.
  - apply kept_write.
  - apply Hmany.
  - apply IH.
  - apply kept_write.
Qed.
(** A loop over a list whose body keeps lists. *)
Lemma live_kept n l xs body h : (∀ x, kept (body x)) → h_lists h !! l = Some xs → length xs ≤ n →
  live_from n l 0 body h = for_each xs body h.
Proof.
  intros Hb Hl Hn. rewrite (live_same l body (λ _, True) xs); [done| |done|done|lia].
  intros x h' _ _ Hl'. split; [done|]. by apply Hb.
Qed.

(** The loops of the setters
    (CIM14/IEC61970/Core/Terminal.py:119-122,
    CIM15/IEC61970/Core/PowerSystemResource.py:126-128). *)
Lemma live_detach S n l xs f q h : h_lists h !! l = Some xs → length xs ≤ n →
  live_from n l 0 (λ x, setattr S f x q VNone) h = for_each xs (λ x, setattr S f x q VNone) h.
Proof. apply live_kept. intros x. apply kept_set_None. Qed.
Lemma live_attach n l xs q v h : h_lists h !! l = Some xs → length xs ≤ n →
  live_from n l 0 (λ y, write_key y (Priv q) v) h = for_each xs (λ y, write_key y (Priv q) v) h.
Proof. apply live_kept. intros x. apply kept_write. Qed.
Notation filter_body S v p q := (λ x,
  let* lst := getattr S x q in let* qs := iter_val lst in let* filtered := new_list (without v qs) in
  let* cur' := read_key v (Priv p) in write_key cur' (Priv q) filtered).
Lemma live_filter S n l xs v p q h : h_lists h !! l = Some xs → length xs ≤ n →
  live_from n l 0 (filter_body S v p q) h = for_each xs (filter_body S v p q) h.
Proof.
  apply live_kept. intros x. apply kept_bind; [apply kept_getattr|intros lst]. apply kept_bind; [apply kept_iter|intros qs].
  apply kept_bind; [apply kept_new_list|intros fl]. apply kept_bind; [apply kept_read|intros cur']. apply kept_write.
Qed.
(** The loop that appends needs at most one turn more than the list is long. *)
Lemma append_new_list v p x h l xs : h_lists h !! l = Some xs →
  h_lists (snd (append_new v p x h)) !! l = Some xs ∨
  v ∉ xs ∧ h_lists (snd (append_new v p x h)) !! l = Some (xs ++ [v]).
Proof.
  intros Hl. unfold bind. destruct x as [| | | | |o|]; try by left. cbn [read_key].
  destruct (slot h o (Priv p)) as [w|] eqn:Es; [|by left]. unfold contains. destruct w as [| | | | | |l']; try by left.
  destruct (h_lists h !! l') as [ys|] eqn:El; [|by left]. case_bool_decide as Hin; [by left|].
  unfold append. rewrite El. cbn [snd]. destruct (decide (l' = l)) as [->|Hne].
  - right. simplify_eq. split; [done|]. by rewrite lists_lset.
  - left. by rewrite lists_lset_ne.
Qed.
Lemma live_append_bound v p l : ∀ n m i h xs, h_lists h !! l = Some xs →
  length xs + (if decide (v ∈ xs) then 0 else 1) ≤ n + i → length xs + (if decide (v ∈ xs) then 0 else 1) ≤ m + i →
  live_from n l i (append_new v p) h = live_from m l i (append_new v p) h.
Proof.
  assert (∀ n i h xs, h_lists h !! l = Some xs → length xs ≤ i → live_from n l i (append_new v p) h = (inl tt, h)) as Hend.
  { intros n i h xs Hl Hi. destruct n; cbn [live_from]; rewrite Hl; by rewrite lookup_ge_None_2. }
  intros n. induction n as [|n IH]; intros m i h xs Hl Hn Hm.
  { rewrite (Hend 0 i h xs), (Hend m i h xs); [done|done| |done|]; lia. }
  destruct (decide (length xs ≤ i)) as [Hi|Hi]; [by rewrite !(Hend _ i h xs)|].
  destruct m as [|m]; [lia|]. cbn [live_from]. rewrite Hl. destruct (xs !! i) as [x|]; [|done].
  pose proof (append_new_list v p x h l xs Hl) as Hx.
  destruct (append_new v p x h) as [[[]|e] h'] eqn:E; [|by rewrite !(bind_inr _ _ _ _ _ E)].
  rewrite !(bind_inl _ _ _ _ _ E). cbn [snd] in Hx. destruct Hx as [Hl'|[Hv Hl']]; eapply IH; try exact Hl'.
  - lia.
  - lia.
  - rewrite app_length, decide_True by set_solver. simpl. rewrite decide_False in Hn by done. lia.
  - rewrite app_length, decide_True by set_solver. simpl. rewrite decide_False in Hm by done. lia.
Qed.
Lemma live_append_any v p l n h xs : h_lists h !! l = Some xs → length xs < n →
  live_each (VList l) (append_new v p) h = live_from n l 0 (append_new v p) h.
Proof.
  intros Hl Hn. unfold live_each. rewrite Hl. eapply live_append_bound; [done|..]; case_decide; lia.
Qed.

(** The loop over a list that it may itself append to. *)
Definition has_list (h : heap) (p : name) (w : val) (m : nat) : Prop := ∃ r, w = VRef r ∧ slot h r (Priv p) = Some (VList m).
Lemma live_append_runs v p l : ∀ n i h xs, h_lists h !! l = Some xs → length xs + (if decide (v ∈ xs) then 0 else 1) ≤ n + i →
  (∀ w, w ∈ xs ∨ w = v ∧ (∃ w', w' ∈ xs ∧ has_list h p w' l) → ∃ m, has_list h p w m ∧ is_Some (h_lists h !! m)) →
  ∃ h' ys, live_from n l i (append_new v p) h = (inl tt, h') ∧ h_objs h' = h_objs h ∧ h_lists h' !! l = Some ys ∧
    (ys = xs ∨ ys = xs ++ [v] ∧ v ∉ xs ∧ ∃ j w, i ≤ j ∧ xs !! j = Some w ∧ has_list h p w l) ∧
    ∀ m, (h_lists h' !! m = h_lists h !! m ∧ ((∃ ms, h_lists h !! m = Some ms ∧ v ∈ ms) ∨ ∀ j w, i ≤ j → ys !! j = Some w → ¬ has_list h p w m)) ∨
      (∃ ms, h_lists h !! m = Some ms ∧ v ∉ ms ∧ h_lists h' !! m = Some (ms ++ [v]) ∧ ∃ j w, i ≤ j ∧ ys !! j = Some w ∧ has_list h p w m).
Proof.
  induction n as [|n IH]; intros i h xs Hl Hn Hall.
  - exists h, xs. cbn [live_from]. rewrite Hl. rewrite lookup_ge_None_2 by lia. split_and!; [done..|by left|]. intros m. left. split; [done|]. right. intros j w Hj E.
    rewrite lookup_ge_None_2 in E by lia. done.
  - cbn [live_from]. rewrite Hl. destruct (xs !! i) as [w|] eqn:Ei.
    2:{ exists h, xs. split_and!; [done..|by left|]. apply lookup_ge_None in Ei. intros m. left. split; [done|]. right. intros j w Hj E. by rewrite lookup_ge_None_2 in E by lia. }
    destruct (Hall w) as (m0 & (r & -> & Hs) & [ms0 Hms]); [left; by eapply elem_of_list_lookup_2|].
    destruct (decide (v ∈ ms0)) as [Hin|Hni].
    + assert (append_new v p (VRef r) h = (inl tt, h)) as E.
      { unfold bind. cbn [read_key]. rewrite Hs. cbn [contains]. rewrite Hms. by rewrite bool_decide_true. }
      rewrite (bind_inl _ _ _ _ _ E). destruct (IH (S i) h xs Hl) as (h' & ys & E' & Ho & Hl' & Hys & Hm); [lia|done|].
      exists h', ys. split_and!; [done..| |].
      * destruct Hys as [?|(? & ? & j & w & Hj & Hw & Hh)]; [by left|right]. split_and!; [done..|]. exists j, w. split_and!; [lia|done..].
      * intros m. destruct (Hm m) as [[E1 [?|Hno]]|(ms & E1 & E2 & E3 & j & w & Hj & Hw & Hh)].
        -- left. split; [done|by left].
        -- left. split; [done|]. destruct (decide (m = m0)) as [->|Hne]; [left; by exists ms0|right].
           intros j w Hj Hw Hh. destruct (decide (j = i)) as [->|Hji]; [|apply (Hno j w); [lia|done..]].
           destruct Hh as (r' & -> & Hr'). assert (r' = r) as ->; [|congruence].
           assert (ys !! i = Some (VRef r)) as Hw'. { destruct Hys as [->|(-> & _)]; [done|]. apply lookup_app_l_Some. done. } congruence.
        -- right. exists ms. split_and!; [done..|]. exists j, w. split_and!; [lia|done..].
    + set (h1 := lset m0 (ms0 ++ [v]) h).
      assert (append_new v p (VRef r) h = (inl tt, h1)) as E.
      { unfold bind. cbn [read_key]. rewrite Hs. cbn [contains]. rewrite Hms. rewrite bool_decide_false by done. unfold append. by rewrite Hms. }
      rewrite (bind_inl _ _ _ _ _ E).
      assert (∀ w m, has_list h1 p w m ↔ has_list h p w m) as Hhl by done.
      assert (∀ m, is_Some (h_lists h !! m) → is_Some (h_lists h1 !! m)) as Hsome.
      { intros m Hm. unfold h1. destruct (decide (m = m0)) as [->|Hne]; [rewrite lists_lset; eauto|by rewrite lists_lset_ne]. }
      set (xs1 := if decide (m0 = l) then xs ++ [v] else xs).
      assert (h_lists h1 !! l = Some xs1) as Hl1.
      { unfold h1, xs1. destruct (decide (m0 = l)) as [Hd|Hd]; [|rewrite lists_lset_ne by done; exact Hl]. rewrite <- Hd at 1. rewrite lists_lset. congruence. }
      destruct (IH (S i) h1 xs1 Hl1) as (h' & ys & E' & Ho & Hl' & Hys & Hm).
      { unfold xs1. destruct (decide (m0 = l)) as [Hd|Hd]; [|lia]. assert (ms0 = xs) as Exs by congruence. rewrite Exs in Hni. rewrite decide_False in Hn by done.
        rewrite app_length, decide_True by set_solver. cbn [length]. lia. }
      { intros w Hw. assert (VRef r ∈ xs) as Hrx by (by eapply elem_of_list_lookup_2).
        destruct (Hall w) as (m & Hh & Hm); [|exists m; split; [done|by apply Hsome]].
        unfold xs1 in Hw. destruct (decide (m0 = l)) as [<-|Hd]; [|done].
        destruct Hw as [[?|?%elem_of_list_singleton]%elem_of_app|[? _]]; [by left|right..].
        - split; [done|]. exists (VRef r). split; [done|by exists r].
        - split; [done|]. exists (VRef r). split; [done|by exists r]. }
      assert (ys !! i = Some (VRef r)) as Hyi.
      { assert (xs1 !! i = Some (VRef r)) as H1. { unfold xs1. destruct (decide (m0 = l)); [by apply lookup_app_l_Some|done]. }
        destruct Hys as [->|(-> & _)]; [done|by apply lookup_app_l_Some]. }
      exists h', ys. split_and!; [done..| |].
      * unfold xs1 in Hys. destruct (decide (m0 = l)) as [Hd|Hd].
        -- assert (ms0 = xs) as Exs by congruence. rewrite Exs in Hni. right. destruct Hys as [->|(_ & Hbad & _)]; [|set_solver]. split_and!; [done..|].
           exists i, (VRef r). split_and!; [lia|done|exists r; by rewrite <- Hd].
        -- destruct Hys as [?|(? & ? & j & w & Hj & Hw & Hh)]; [by left|right]. split_and!; [done..|]. exists j, w. split_and!; [lia|done..].
      * intros m. destruct (decide (m = m0)) as [->|Hne].
        -- right. exists ms0. split_and!; [done..| |exists i, (VRef r); split_and!; [lia|done|by exists r]].
           destruct (Hm m0) as [[E1 _]|(ms & E1 & E2 & _)].
           ++ rewrite E1. unfold h1. by rewrite lists_lset.
           ++ unfold h1 in E1. rewrite lists_lset in E1. injection E1 as <-. set_solver.
        -- assert (h_lists h1 !! m = h_lists h !! m) as Em by (unfold h1; by rewrite lists_lset_ne). rewrite <- Em.
           destruct (Hm m) as [[E1 [?|Hno]]|(ms & E1 & E2 & E3 & j & w & Hj & Hw & Hh)].
           ++ left. split; [done|by left].
           ++ left. split; [done|right]. intros j w Hj Hw Hh. destruct (decide (j = i)) as [->|Hji]; [|apply (Hno j w); [lia|done..]].
              destruct Hh as (r' & -> & Hr'). rewrite Hyi in Hw. injection Hw as <-. congruence.
           ++ right. exists ms. split_and!; [done..|]. exists j, w. split_and!; [lia|done..].
Qed.

(** Code that changes no attribute, only lists. *)
Definition static {A} (m : M A) : Prop := ∀ h, h_objs (snd (m h)) = h_objs h.
Lemma static_bind {A B} (m : M A) (f : A → M B) : static m → (∀ a, static (f a)) → static (bind m f).
Proof. intros Hm Hf h. unfold bind. specialize (Hm h). destruct (m h) as [[a|e] h']; [by rewrite Hf|done]. Qed.
Lemma static_for_each {A} (xs : list A) body : (∀ x, static (body x)) → static (for_each xs body).
Proof. intros Hb. induction xs as [|x xs IH]; cbn [for_each]; [done|]. by apply static_bind. Qed.
Lemma static_read v k : static (read_key v k).
Proof. intros h. unfold read_key. destruct v; try done. by destruct (slot h o k). Qed.
Lemma static_contains x v : static (contains x v).
Proof. intros h. unfold contains. destruct v; try done. by destruct (h_lists h !! l). Qed.
Lemma static_append v x : static (append v x).
Proof. intros h. unfold append. destruct v; try done. by destruct (h_lists h !! l). Qed.
Lemma static_remove v x : static (list_remove v x).
Proof. intros h. unfold list_remove. destruct v; try done. destruct (h_lists h !! l) as [xs|]; [|done]. by destruct (remove_first x xs). Qed.
Lemma static_add_many S f x p q ys h : pkind S h x p = Some (PManyMany q) → h_objs (snd (add S f (VRef x) p ys h)) = h_objs h.
Proof.
  intros Hk. unfold add. unfold obj_prop. unfold pkind in Hk. rewrite Hk. apply static_for_each. intros y.
  apply static_bind; [apply static_read|intros lst]. apply static_bind; [apply static_contains|intros b].
  apply static_bind; [destruct b; [done|apply static_append]|intros _]. apply static_bind; [apply static_read|intros]. apply static_append.
Qed.
Lemma static_remove_many S f x p q ys h : pkind S h x p = Some (PManyMany q) → h_objs (snd (remove S f (VRef x) p ys h)) = h_objs h.
Proof.
  intros Hk. unfold remove. unfold obj_prop. unfold pkind in Hk. rewrite Hk. apply static_for_each. intros y.
  apply static_bind; [apply static_read|intros lst]. apply static_bind; [apply static_contains|intros b].
  apply static_bind; [destruct b; [|done]; apply static_bind; [apply static_read|intros; apply static_remove]|intros _].
  apply static_bind; [apply static_read|intros]. apply static_remove.
Qed.
Lemma slot_objs h h' o k : h_objs h' = h_objs h → slot h' o k = slot h o k.
Proof. unfold slot. by intros ->. Qed.
