(** Lemmas for C79: the files of a trace and of its beginning. *)
Require Import NArith ZArith List Bool Lia.
Require Import Verif.Word Verif.Codec_Types Verif.Codec_Spec Verif.Codec_Proofs3 Verif.Codec_Proofs4 Verif.Writer_Model Verif.Reader_Model.
Require Import Verif.Htm_Model Verif.Htm_Proofs3 Verif.Convert_Model Verif.Cut_Spec Verif.Cut_Proofs.
Require Verif.Tlb_Model.
Import ListNotations.
Local Open Scope N_scope.

Lemma starts_flat_map : forall A B (f : A -> list B) l l', starts l l' -> starts (flat_map f l) (flat_map f l').
Proof. intros A B f l l' [r ->]. exists (flat_map f r). apply flat_map_app. Qed.

(** ** Beginnings of what can be framed *)
Lemma chain_app : forall rs l p, chain_frames p (rs ++ l) -> chain_frames p rs.
Proof.
  induction rs as [|r rs IH]; intros l p; cbn; [intros; exact I|].
  intros (H1 & H2 & H3 & H4 & H5). repeat (split; [assumption|]). exact (IH l r H5).
Qed.
Lemma frames_app : forall rs l, frames (rs ++ l) -> frames rs.
Proof.
  intros [|r rs] l; cbn; [intros; exact I|]. intros (H1 & H2 & H3 & H4 & H5).
  repeat (split; [assumption|]). exact (chain_app rs l r H5).
Qed.
Lemma chain_last : forall rs p c l, chain_frames p (rs ++ c :: l) ->
  q_data_ra_valid (last rs p) = true -> storable (q_radix_data (last rs p)).
Proof.
  induction rs as [|r rs IH]; intros p c l; cbn [app chain_frames].
  - intros (_ & _ & _ & H & _) D. exact (proj1 H D).
  - intros (_ & _ & _ & _ & H). specialize (IH r c l H). cbn [last]. destruct rs as [|r' rs]; [exact IH|].
    rewrite (last_default (r' :: rs) ltac:(discriminate) p r); exact IH.
Qed.
Lemma closes_app : forall rs l, frames (rs ++ l) -> closes (rs ++ l) -> closes rs.
Proof.
  intros rs [|c l] F C; [rewrite app_nil_r in C; exact C|]. destruct rs as [|r rs].
  - intros D. cbn in D. discriminate D.
  - cbn [app frames] in F. destruct F as (_ & _ & _ & _ & F). unfold closes.
    pose proof (chain_last rs r c l F) as X. cbn [last]. destruct rs as [|r' rs]; [exact X|].
    rewrite (last_default (r' :: rs) ltac:(discriminate) zero_qrec r); exact X.
Qed.

(** ** Beginnings of what the reader sees *)
Lemma expected_from_app : forall rs t p l, starts (removelast (expected_from t p rs)) (expected_from t p (rs ++ l)).
Proof.
  induction rs as [|r rs IH]; intros t p l.
  - exists (expected_from t p l). reflexivity.
  - cbn [app expected_from]. destruct (IH (next_trans t p r) r l) as [x E].
    assert (NE : expected_from (next_trans t p r) r rs <> []) by (destruct rs; discriminate).
    exists x. rewrite E. destruct (expected_from (next_trans t p r) r rs) as [|v vs]; [contradiction|]. reflexivity.
Qed.
Lemma expected_app : forall rs l, starts (removelast (expected rs)) (expected (rs ++ l)).
Proof. intros [|r rs] l; [exists (expected l); reflexivity|]. apply expected_from_app. Qed.

Lemma expected_length : forall rs, length (expected rs) = length rs.
Proof.
  intros [|r rs]; [reflexivity|]. cbn [expected length]. generalize (first_trans r). revert r.
  induction rs as [|c rs IH]; intros r t; [reflexivity|]. cbn [expected_from length]. f_equal. apply IH.
Qed.

Definition seen (slack file : list N) : list view := map view_of (fst (read_trace false false slack file)).
Lemma files : forall qs stale junk bytes more bad s t slack,
  htm_decode qs stale junk true bytes true = HOk s ->
  htm_decode qs stale junk true (bytes ++ more) bad = HOk t ->
  frames (flat_map to_write (h_out t)) -> closes (flat_map to_write (h_out t)) -> (4 <= length slack)%nat ->
  exists f f', htmdecoder qs stale junk bytes true = COk f /\ htmdecoder qs stale junk (bytes ++ more) bad = COk f'
    /\ starts (removelast (seen slack f)) (seen slack f')
    /\ length (seen slack f) = length (flat_map to_write (h_out s)).
Proof.
  intros qs stale junk bytes more bad s t slack Hs Ht F C L.
  pose proof (decode_cut qs stale junk true bytes more bad) as Q. rewrite Hs, Ht in Q. destruct Q as [Q _].
  apply (starts_flat_map _ _ to_write) in Q. unfold htmdecoder. rewrite Hs, Ht.
  remember (flat_map to_write (h_out s)) as rs. remember (flat_map to_write (h_out t)) as rs'. destruct Q as [l Q].
  assert (F' : frames rs) by (rewrite Q in F; exact (frames_app _ _ F)).
  assert (C' : closes rs) by (rewrite Q in F, C; exact (closes_app _ _ F C)).
  assert (M : 0 < 2 ^ 32) by reflexivity.
  destruct (round_trip 0 rs slack M F' C' L) as (f & W & V & _).
  destruct (round_trip 0 rs' slack M F C L) as (f' & W' & V' & _).
  exists f, f'. rewrite W, W'. split; [reflexivity|]. split; [reflexivity|]. unfold seen. rewrite V, V'. split.
  - rewrite Q. apply expected_app.
  - apply expected_length.
Qed.
Lemma decode_cut_at : forall qs stale junk full bytes n bad, (forall z, length (stale z) = 8%nat) ->
  match htm_decode qs stale junk full (firstn n bytes) true with
  | HErr e => htm_decode qs stale junk full bytes bad = HErr e \/ e = HAssert
  | HOk s => forall t, htm_decode qs stale junk full bytes bad = HOk t ->
             starts (h_out s) (h_out t) /\ starts (h_log s) (h_log t)
  end.
Proof.
  intros qs stale junk full bytes n bad Hst.
  pose proof (decode_cut qs stale junk full (firstn n bytes) (skipn n bytes) bad) as Q. rewrite firstn_skipn in Q.
  pose proof (decode_words qs stale junk full (firstn n bytes) true Hst) as W.
  destruct (htm_decode qs stale junk full (firstn n bytes) true) as [s|e].
  - intros t E. rewrite E in Q. exact Q.
  - destruct Q as [Q|[Q|Q]]; [left; exact Q|right; exact Q|]. destruct W as [W _]. contradiction.
Qed.
