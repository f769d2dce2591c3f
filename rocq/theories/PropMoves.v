(** Property C104: the order of assignments. *)
From Coq Require Import String.
From stdpp Require Import prelude gmap.
From Verif Require Import PyStr PyHeap Schema AssocSpec History HistorySpec Assoc TableSpec HeapFacts AssocFacts HistoryFacts GraphSpec Names TabCIM14 Demo PropAssoc
  MovesSpec MovesFacts GraphCheck AdmCheck.

(** Statements that give values to different attributes and single ends succeed
    in turn.  The values are there afterwards, and each collection has its
    former members that got no value, in their order, and after them those
    that got its owner, in the order of the statements. *)
Theorem C104_moves T f h cs ls : Consistent T h → Forall2 (moves T h) cs ls → NoDup (map fst (concat ls)) →
  ∃ h', run_ops T (S (S f)) cs h = (inl tt, h') ∧ same_classes h h' ∧ Moved (pkind T h) (view h) (view h') (concat ls) ∧ Consistent T h'.
Proof. intros HC HF Hn. by apply moves_run. Qed.
Print Assumptions C104_moves.

Lemma omap_perm {A B} (f : A → option B) l l' : l ≡ₚ l' → omap f l ≡ₚ omap f l'.
Proof.
  induction 1 as [|x l l' _ IH|x y l|l1 l2 l3 _ IH1 _ IH2]; [done| | |by rewrite IH1]; cbn.
  - destruct (f x); by rewrite IH.
  - destruct (f x), (f y); try done. apply perm_swap.
Qed.
(** Neither their order matters nor the statement chosen, but for the order of
    collections. *)
Theorem C104_order T f h cs cs' ls ls' : Consistent T h → Forall2 (moves T h) cs ls → Forall2 (moves T h) cs' ls' →
  concat ls ≡ₚ concat ls' → NoDup (map fst (concat ls)) →
  ∃ h1 h2, run_ops T (S (S f)) cs h = (inl tt, h1) ∧ run_ops T (S (S f)) cs' h = (inl tt, h2) ∧
    same_classes h1 h2 ∧ ∀ o k, same_members (view h1 o k) (view h2 o k).
Proof.
  intros HC HF HF' HP Hn. pose proof HC as [Hwf HL].
  assert (NoDup (map fst (concat ls'))) as Hn' by by rewrite <- HP.
  destruct (moves_run T f cs ls h HC HF Hn) as (h1 & E1 & Hs1 & HM1 & _).
  destruct (moves_run T f cs' ls' h HC HF' Hn') as (h2 & E2 & Hs2 & HM2 & _).
  exists h1, h2. split; [done|]. split; [done|]. split; [intros o; by rewrite Hs2, Hs1|]. intros o k.
  destruct (decide ((o, k) ∈ map fst (concat ls))) as [((x & v) & [= <-] & Hin)%elem_of_list_fmap|Hno].
  { left. cbn in *. rewrite (md_value _ _ _ _ HM1 _ _ _ Hin). apply (md_value _ _ _ _ HM2). by rewrite <- HP. }
  assert (∀ v, (o, k, v) ∉ concat ls) as H1 by (intros v Hin; apply Hno, elem_of_list_fmap; by exists (o, k, v)).
  assert (∀ v, (o, k, v) ∉ concat ls') as H2 by (intros v; rewrite <- HP; apply H1).
  assert ((∃ q p' ys, k = Priv q ∧ pkind T h o q = Some (PManyOne p') ∧ view h o (Priv q) = Some (OL ys)) ∨
    ∀ q p' ys, k = Priv q → pkind T h o q = Some (PManyOne p') → view h o k ≠ Some (OL ys)) as [(q & p' & ys & -> & Hk & Hv)|Hf].
  { destruct k as [a|q]; [by right|]. destruct (view h o (Priv q)) as [[v|ys]|] eqn:Hv; [by right| |by right].
    destruct (pkind T h o q) as [[|p'| | | | |]|] eqn:Hk; [| |right|right|right|right|right|right]; try (intros ??? [= <-]; congruence); [right; intros ??? [= <-]; congruence|].
    left. eauto 10. }
  - right. eexists _, _. split; [exact (md_coll _ _ _ _ HM1 _ _ _ _ Hk Hv)|]. split; [exact (md_coll _ _ _ _ HM2 _ _ _ _ Hk Hv)|].
    assert (arrivals (pkind T h) (concat ls) o q ≡ₚ arrivals (pkind T h) (concat ls') o q) as ->.
    { unfold arrivals. by apply omap_perm. }
    f_equiv. erewrite filter_same; [reflexivity|]. intros y _. rewrite <- !not_true_iff_false, !leaves_ok. by setoid_rewrite HP.
  - left. rewrite (md_frame _ _ _ _ HM1), (md_frame _ _ _ _ HM2) by done. done.
Qed.
Print Assumptions C104_order.

(** *** Examples: the terminals 0 and 1 at node 2, moved to node 3. *)
Definition moved_first : list op := [OSet 0 n_ConnectivityNode (VRef 3); OSet 0 n_name (VStr (u "T0")); OAdd 3 n_Terminals [1]].
Definition moved_last : list op := [OSet 1 n_ConnectivityNode (VRef 3); OAdd 3 n_Terminals [0]; OSet 0 n_name (VStr (u "T0"))].
Definition the_moves : list move := [(0, Priv n_ConnectivityNode, VRef 3); (0, Pub n_name, VStr (u "T0")); (1, Priv n_ConnectivityNode, VRef 3)].
Lemma end_of_node x : x = 0 ∨ x = 1 → ends_one_many (pkind cim14 g14) x n_ConnectivityNode 3 n_Terminals ∧
  resolves (pkind cim14 g14) x n_ConnectivityNode n_ConnectivityNode ∧ has_slot g14 x n_ConnectivityNode.
Proof.
  intros Hx. assert (pkind cim14 g14 x n_ConnectivityNode = Some (POneMany n_Terminals)) as Hk by (destruct Hx as [-> | ->]; compute_now).
  assert (resolves (pkind cim14 g14) x n_ConnectivityNode n_ConnectivityNode) as Hr by (left; split; [done|]; intros; congruence).
  split; [split; [done|]; exists n_ConnectivityNode; split; [compute_now|done]|]. split; [done|].
  unfold has_slot. destruct Hx as [-> | ->]; (eexists; compute_now).
Qed.
Lemma moves_set x : x = 0 ∨ x = 1 → moves cim14 g14 (OSet x n_ConnectivityNode (VRef 3)) [(x, Priv n_ConnectivityNode, VRef 3)].
Proof.
  intros Hx. destruct (end_of_node x Hx) as (He & _ & Hs). apply (mv_single cim14 g14 x n_ConnectivityNode n_Terminals); [apply He|done|].
  right. exists 3, []. split; [done|]. split; [done|compute_now].
Qed.
Lemma moves_add x : x = 0 ∨ x = 1 → moves cim14 g14 (OAdd 3 n_Terminals [x]) [(x, Priv n_ConnectivityNode, VRef 3)].
Proof.
  intros Hx. apply (mv_add cim14 g14 3 n_Terminals n_ConnectivityNode n_ConnectivityNode [] [x]); [compute_now|compute_now|].
  intros y ->%elem_of_list_singleton. by apply end_of_node.
Qed.
Lemma moves_name : moves cim14 g14 (OSet 0 n_name (VStr (u "T0"))) [(0, Pub n_name, VStr (u "T0"))].
Proof. constructor; [compute_now|eexists; compute_now|compute_now|done]. Qed.
Example C104_example :
  Consistent cim14 g14 ∧
  Forall2 (moves cim14 g14) moved_first [[(0, Priv n_ConnectivityNode, VRef 3)]; [(0, Pub n_name, VStr (u "T0"))]; [(1, Priv n_ConnectivityNode, VRef 3)]] ∧
  Forall2 (moves cim14 g14) moved_last [[(1, Priv n_ConnectivityNode, VRef 3)]; [(0, Priv n_ConnectivityNode, VRef 3)]; [(0, Pub n_name, VStr (u "T0"))]] ∧
  [(1, Priv n_ConnectivityNode, VRef 3); (0, Priv n_ConnectivityNode, VRef 3); (0, Pub n_name, VStr (u "T0"))] ≡ₚ the_moves ∧
  NoDup (map fst the_moves) ∧ view g14 2 (Priv n_Terminals) = Some (OL [VRef 0; VRef 1]) ∧
  arrivals (pkind cim14 g14) the_moves 3 n_Terminals = [VRef 0; VRef 1] ∧ leaves (pkind cim14 g14) the_moves 2 n_Terminals (VRef 1) = true.
Proof.
  split; [exact g14_Consistent|].
  split; [constructor; [apply moves_set; by left|]; constructor; [exact moves_name|]; constructor; [apply moves_add; by right|constructor]|].
  split; [constructor; [apply moves_set; by right|]; constructor; [apply moves_add; by left|]; constructor; [exact moves_name|constructor]|].
  split; [unfold the_moves; etrans; [apply perm_swap|]; apply perm_skip, perm_swap|].
  split; [apply (bool_decide_unpack _); compute_now|]. split; [compute_now|]. split; compute_now.
Qed.
(** That the collections do not show the order. *)
Theorem C104_lists_refuted : ∃ T h cs cs' ls ls' o k, Consistent T h ∧ Forall2 (moves T h) cs ls ∧ Forall2 (moves T h) cs' ls' ∧
  concat ls ≡ₚ concat ls' ∧ NoDup (map fst (concat ls)) ∧
  view (snd (run_ops T 20 cs h)) o k ≠ view (snd (run_ops T 20 cs' h)) o k.
Proof.
  exists cim14, g14, moved_first, moved_last. eexists _, _. exists 3, (Priv n_Terminals). destruct C104_example as (H1 & H2 & H3 & H4 & H5 & _).
  split; [exact H1|]. split; [exact H2|]. split; [exact H3|]. split; [symmetry; exact H4|]. split; [exact H5|].
  assert (view (snd (run_ops cim14 20 moved_first g14)) 3 (Priv n_Terminals) = Some (OL [VRef 0; VRef 1])) as -> by compute_now.
  assert (view (snd (run_ops cim14 20 moved_last g14)) 3 (Priv n_Terminals) = Some (OL [VRef 1; VRef 0])) as -> by compute_now. done.
Qed.
Print Assumptions C104_lists_refuted.
(** That the order of assignments to different one-to-one ends does not matter:
    the power flows 4 and 5 take terminal 1 from each other. *)
Theorem C104_pairs_refuted : ∃ T h x x' p q y, Consistent T h ∧ x ≠ x' ∧ pkind T h x p = Some (POneOne q) ∧ pkind T h x' p = Some (POneOne q) ∧
  fits_one_one T h x p q y ∧ fits_one_one T h x' p q y ∧
  view (snd (run_ops T 20 [OSet x p y; OSet x' p y] h)) x (Priv p) = Some (OV VNone) ∧
  view (snd (run_ops T 20 [OSet x' p y; OSet x p y] h)) x (Priv p) = Some (OV y) ∧ y ≠ VNone.
Proof.
  exists cim14, g14, 4, 5, n_Terminal, n_SvPowerFlow, (VRef 1). split; [exact g14_Consistent|]. split; [done|]. split; [compute_now|]. split; [compute_now|].
  split; [apply fits_oo_b_ok; compute_now|]. split; [apply fits_oo_b_ok; compute_now|]. split; [compute_now|]. split; [compute_now|done].
Qed.
Print Assumptions C104_pairs_refuted.
