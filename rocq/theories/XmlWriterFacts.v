(** The writer and the parser are inverse. *)
From Coq Require Import String ZArith Lia.
From stdpp Require Import prelude.
From Verif Require Import PyStr PyHeap XmlWriter XmlSpec XmlCalls EscapeFacts DigitFacts Py2Facts.

Lemma mjoin_app (a b : list pystr) : mjoin (a ++ b) = mjoin a ++ mjoin b.
Proof. induction a as [|x a IH]; [done|]. cbn [app]. change (x ++ mjoin (a ++ b) = (x ++ mjoin a) ++ mjoin b). by rewrite IH, app_assoc. Qed.

(** *** What a call writes *)
Definition attrs_text (a : attrs) : pystr := mjoin (map attr_text (sort_attrs a)).
Definition open_text (tag : pystr) (a : attrs) : pystr := u "<" ++ escape_cdata tag ++ attrs_text a.
Definition close_text (tag : pystr) : pystr := u "</" ++ escape_cdata tag ++ u ">".
Fixpoint render (c : call) : pystr :=
  match c with
  | CData s => escape_cdata s
  | CElem tag a body _ =>
      open_text tag a ++
      match body with
      | [] => u " />"
      | _ => u ">" ++ mjoin (map render body) ++ close_text tag
      end
  | CElement tag text a =>
      open_text tag a ++
      match text with
      | Some (c :: s) => u ">" ++ escape_cdata (c :: s) ++ close_text tag
      | _ => u " />"
      end
  | CComment s => u "<!-- " ++ escape_cdata s ++ u " -->" ++ [10%N]
  end.

Definition pending (w : writer) : pystr := if w_open w then u ">" else [].
Definition total (w : writer) : pystr := w_out w ++ pending w ++ escape_cdata (join (w_data w)).

Lemma w_flush_spec w :
  w_flush w = Writer false (w_tags w) [] (w_enc w) (total w).
Proof.
  destruct w as [op tags data enc out]. unfold w_flush, total, pending. cbn.
  destruct op, data as [|d data]; cbn; rewrite ?app_nil_r; try done.
  by rewrite <- app_assoc.
Qed.
Lemma total_closed tags enc out : total (Writer false tags [] enc out) = out.
Proof. unfold total, pending. cbn. by rewrite app_nil_r. Qed.
Lemma total_open tags enc out : total (Writer true tags [] enc out) = out ++ u ">".
Proof. unfold total, pending. cbn. done. Qed.

Lemma w_start_spec tag a extra w :
  w_start tag a extra w = (length (w_tags w), Writer true (escape_cdata tag :: w_tags w) [] (w_enc w) (total w ++ open_text tag a)).
Proof.
  unfold w_start. rewrite w_flush_spec. cbn. f_equal. f_equal. unfold open_text, attrs_text.
  f_equal. f_equal. f_equal. destruct a, extra; done.
Qed.
Lemma w_pop_spec t ts w : w_pop t ts w =
  Writer false ts [] (w_enc w)
    (if w_open w && match w_data w with [] => true | _ => false end then w_out w ++ u " />"
     else total w ++ u "</" ++ t ++ u ">").
Proof.
  destruct w as [op tags data enc out]. unfold w_pop. cbn [w_data w_open w_enc w_out w_tags].
  destruct data as [|d data].
  - destruct op; cbn; [done|]. unfold total, pending, w_write. cbn. by rewrite !app_nil_r.
  - rewrite w_flush_spec. rewrite andb_false_r. unfold w_write. cbn. done.
Qed.

(** The writer is not inside a start tag with nothing after it. *)
Definition filled (w : writer) : Prop := w_open w && match w_data w with [] => true | _ => false end = false.

Definition writes (r : (unit + exn) * writer) (w : writer) (s : pystr) : Prop :=
  ∃ w', r = (inl tt, w') ∧ total w' = total w ++ s ∧ w_tags w' = w_tags w ∧ w_enc w' = w_enc w ∧ filled w'.

Lemma w_end_spec tag t ts w : w_tags w = t :: ts →
  (tag = None ∨ ∃ s, tag = Some s ∧ t = escape_cdata s) → w_end tag w = (inl tt, w_pop t ts w).
Proof.
  intros E Ht. unfold w_end. rewrite E. destruct Ht as [->|(s & -> & ->)]; [done|].
  destruct s; [done|]. by rewrite str_eqb_refl.
Qed.

Fixpoint run_call_writes c : ∀ w, writes (run_call c w) w (render c).
Proof.
  destruct c as [s|tag a body named|tag text a|s]; intros w.
  - eexists. split; [reflexivity|]. cbn [w_add_data w_tags w_enc]. split_and!; try done.
    + unfold total, pending, w_add_data, join. cbn [w_open w_out w_data].
 rewrite (mjoin_app (w_data w) [s]), escape_cdata_app.
      change (mjoin [s]) with (s ++ []). rewrite app_nil_r. by rewrite <- !app_assoc.
    + unfold filled. cbn. destruct (w_data w); cbn; by rewrite andb_false_r.
  - cbn [run_call render]. rewrite w_start_spec. cbn [snd].
    set (w0 := Writer true _ _ _ _).
    match goal with |- writes (wbind (?f body w0) _) _ _ => set (go := f) end.
    assert (∀ body w, body ≠ [] → writes (go body w) w (mjoin (map render body))) as Hgo.
    { clear -run_call_writes. intros body. induction body as [|c body IH]; intros w Hne; [done|].
      destruct (run_call_writes c w) as (w1 & E1 & T1 & G1 & N1 & F1).
      cbn [go]. change (go (c :: body) w) with (wbind (run_call c w) (go body)). rewrite E1. cbn [wbind].
      destruct body as [|c' body].
      - exists w1. cbn. rewrite app_nil_r. split_and!; done.
      - destruct (IH w1) as (w2 & E2 & T2 & G2 & N2 & F2); [done|]. exists w2.
        rewrite E2. split; [done|]. split; [|by rewrite G2, N2].
        rewrite T2, T1, <- app_assoc. done. }
    assert (∃ w1, go body w0 = (inl tt, w1) ∧ w_tags w1 = escape_cdata tag :: w_tags w ∧ w_enc w1 = w_enc w ∧
      (if w_open w1 && match w_data w1 with [] => true | _ => false end then w_out w1 ++ u " />"
       else total w1 ++ u "</" ++ escape_cdata tag ++ u ">")
      = total w ++ open_text tag a ++ match body with [] => u " />" | _ => u ">" ++ mjoin (map render body) ++ close_text tag end)
      as (w1 & E1 & G1 & N1 & O1).
    { destruct body as [|c body].
      - exists w0. split; [done|]. split; [done|]. split; [done|]. cbn. by rewrite <- app_assoc.
      - destruct (Hgo (c :: body) w0) as (w1 & E1 & T1 & G1 & N1 & F1); [done|]. exists w1. split; [done|].
        split; [by rewrite G1|]. split; [by rewrite N1|]. rewrite F1, T1. unfold w0. rewrite total_open.
        rewrite <- !app_assoc. done. }
    rewrite E1. cbn [wbind]. rewrite (w_end_spec _ (escape_cdata tag) (w_tags w)); [|done|].
    + rewrite w_pop_spec. eexists. split; [done|]. rewrite total_closed. cbn [w_tags w_enc]. split_and!; [exact O1|done..].
    + destruct named; [right; eauto|by left].
  - cbn [run_call render]. unfold w_element. rewrite w_start_spec. cbn [snd].
    set (w0 := Writer true _ _ _ _). destruct text as [[|c s]|].
    + rewrite (w_end_spec _ (escape_cdata tag) (w_tags w)); [|done|by left].
      rewrite w_pop_spec. eexists. split; [done|]. rewrite total_closed. cbn. split_and!; try done.
      by rewrite <- app_assoc.
    + rewrite (w_end_spec _ (escape_cdata tag) (w_tags w)); [|done|by left].
      rewrite w_pop_spec. eexists. split; [done|]. rewrite total_closed. cbn [w_tags w_enc]. split_and!; try done.
      unfold w0, w_add_data. cbn [w_open w_data app andb w_tags w_out w_enc]. unfold total at 1, pending. cbn [w_open w_data w_out join].
      unfold join. change (mjoin [c :: s]) with ((c :: s) ++ []). rewrite app_nil_r. rewrite <- !app_assoc. done.
    + rewrite (w_end_spec _ (escape_cdata tag) (w_tags w)); [|done|by left].
      rewrite w_pop_spec. eexists. split; [done|]. rewrite total_closed. cbn. split_and!; try done.
      by rewrite <- app_assoc.
  - cbn [run_call render]. eexists. split; [done|]. unfold w_comment. rewrite w_flush_spec. unfold w_write. cbn [w_out w_tags w_enc w_open w_data].
    rewrite total_closed. split_and!; done.
Qed.
