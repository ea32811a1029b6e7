(** Proofs for C82: the software TLB, call by call. *)
Require Import NArith ZArith List Bool Lia.
Require Import ZifyBool ZifyN ZifyNat.
Require Import Verif.Word Verif.Tlb_Model Verif.Tlb_Spec Verif.Tlb_Proofs.
Require Import Verif.Tlbdump_Model Verif.Tlbdump_Spec Verif.Tlbdump_Proofs Verif.Tlbdump_Proofs2 Verif.Tlbdump_Proofs3.
Import ListNotations.
Local Open Scope N_scope.

Definition good (h : list op) (s : tlbs) : Prop :=
  exists l, l = entries s /\ inv h s /\ ledger h l /\ tlb_translations s = lookups h /\
  tlb_no_translation s = unanswered h /\ tlb_changes s = replaced [] h.

Lemma good_zero : good [] tlb_zero.
Proof.
  exists []. split; [reflexivity|]. split; [exact inv_zero|]. split; [split; [intros t []|discriminate]|]. repeat split.
Qed.
Lemma replaced_app : forall h pre h', replaced pre (h ++ h') = replaced pre h + replaced (pre ++ h) h'.
Proof.
  induction h as [|o h IH]; intros pre h'; cbn [app replaced]; [rewrite app_nil_r; lia|].
  rewrite IH, <- app_assoc. cbn [app]. lia.
Qed.
Lemma answers_app : forall h pre h', answers pre (h ++ h') = answers pre h ++ answers (pre ++ h) h'.
Proof.
  induction h as [|o h IH]; intros pre h'; cbn [app answers]; [rewrite app_nil_r; reflexivity|].
  assert (E : (pre ++ [o]) ++ h = pre ++ o :: h) by (rewrite <- app_assoc; reflexivity).
  destruct o; rewrite IH, E; reflexivity.
Qed.
Lemma lookups_app : forall h h', lookups (h ++ h') = lookups h + lookups h'.
Proof. intros. unfold lookups. rewrite filter_app, app_length. lia. Qed.
Lemma good_step : forall qs h s o, sorter qs -> good h s -> op_ok o ->
  no_mixed_overlap (h ++ [o]) -> top_unused h [o] -> N.of_nat (length h) < 2 ^ 30 ->
  exists s', tlb_run qs s [o] = TOk (s', answers h [o]) /\ good (h ++ [o]) s'.
Proof.
  intros qs h s o HS (l & -> & G1 & G2 & G3 & G4 & G5) Ho HC HT HL.
  destruct (run_ledger qs [o] h s HS G1 G2) as (s' & E & H1 & H2 & H3 & H4 & H5).
  - constructor; [exact Ho|constructor].
  - exact HC.
  - exact HT.
  - rewrite app_length. cbn [length]. change (2 ^ 30) with 1073741824 in *. lia.
  - exists s'. split; [exact E|]. exists (entries s'). split; [reflexivity|]. split; [exact H1|]. split; [exact H2|].
    rewrite lookups_app, replaced_app. unfold unanswered in *. rewrite answers_app, filter_app, app_length.
    cbn [app]. rewrite H3, H4, H5, G3, G4, G5. split; [reflexivity|]. split; [lia|reflexivity].
Qed.
Lemma set_good : forall qs h s ea flags ra sz, sorter qs -> good h s ->
  op_ok (OSet ea flags ra sz) -> no_mixed_overlap (h ++ [OSet ea flags ra sz]) ->
  N.of_nat (length h) < 2 ^ 30 ->
  exists s', tlb_ra_set qs s ea flags ra sz = TOk s' /\ good (h ++ [OSet ea flags ra sz]) s'.
Proof.
  intros qs h s ea flags ra sz HS G Ho HC HL.
  destruct (good_step qs h s _ HS G Ho HC I HL) as (s' & E & G'). cbn [tlb_run answers] in E.
  exists s'. split; [|exact G']. destruct (tlb_ra_set qs s ea flags ra sz); cbn [tbind] in E; [congruence|discriminate E].
Qed.
Lemma get_good : forall qs h s ea flags, sorter qs -> good h s -> op_ok (OGet ea flags) ->
  no_mixed_overlap (h ++ [OGet ea flags]) ->
  (N.odd flags = true -> forall page size, latest h ea = Some (page, size) ->
     (ea / size + 1) * size < 2 ^ 64) ->
  N.of_nat (length h) < 2 ^ 30 ->
  exists s', tlb_ra_get s ea flags = TOk (answer h ea flags, s') /\ good (h ++ [OGet ea flags]) s'.
Proof.
  intros qs h s ea flags HS G Ho HC HT HL.
  destruct (good_step qs h s _ HS G Ho HC (conj HT I) HL) as (s' & E & G'). cbn [tlb_run answers] in E.
  exists s'. split; [|exact G']. destruct (tlb_ra_get s ea flags) as [[x y]|e]; cbn [tbind fst snd] in E; [|discriminate E].
  assert (X : y = s' /\ [x] = [answer h ea flags]) by (split; congruence). destruct X as [-> X]. congruence.
Qed.
Lemma good_dump : forall h s, good h s -> exists rows, table h rows /\
  tlb_dump s = TOk (report dec dec02 hex8 hex16 rows (unanswered h) (lookups h) (replaced [] h)).
Proof.
  intros h s (es & -> & (l & k & W & SH & _) & LG & E1 & E2 & E3).
  rewrite (entries_shape s l k SH) in LG. exists (map row_of l). split; [now apply ledger_table|].
  rewrite (dump_report s l k SH), E1, E2, E3. reflexivity.
Qed.
