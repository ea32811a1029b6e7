(** The output of qtdis -d 1 for written traces. *)
Require Import NArith List Bool String Lia ZifyBool ZifyN ZifyNat.
Require Import Verif.Word Verif.Codec_Types Verif.Writer_Model Verif.Codec_Spec Verif.Reader_Model Verif.Qtdis_Model Verif.Qtdis_Spec.
Require Import Verif.Qtdis_Proofs3 Verif.Verbose_Model Verif.Verbose_Spec Verif.Vtext_Spec Verif.Vtext_Proofs2.
Require Import Verif.Dump_Model Verif.Dump_Spec Verif.Dump_Proofs.
Require Verif.Verbose_Props.
Import ListNotations.
Local Open Scope N_scope.
Local Open Scope list_scope.

Lemma list_pick {A} (p : shown -> list N) (f : A -> shown) o :
  flat_map p (list_of f o) = match o with Some x => p (f x) | None => [] end.
Proof. destruct o; [|reflexivity]. cbn [list_of flat_map]. apply app_nil_r. Qed.
Lemma term_pick (p : shown -> list N) q j : (forall n, p (SNode n) = []) -> (forall n c, p (STerm n c) = []) -> flat_map p (term_seen q j) = [].
Proof.
  intros A B. unfold term_seen. destruct (q_branch q || j); [cbn [flat_map]; now rewrite A, B|].
  destruct (Branch_Model.is_conditional_branch (q_insn q)); [cbn [flat_map]; now rewrite B|reflexivity].
Qed.
Section pair.
Variables (t : trans) (p c : qrec).
Local Notation L := (notes_of t p c).
Lemma w_data : pick p_data L = optb (q_data_addr_valid p) (q_data_addr p).
Proof.
  unfold pick, notes_of, data_seen, insn_seen. rewrite !flat_map_app, !list_pick, term_pick by reflexivity.
  cbn [expected_one v_daddr v_dra v_dwalk v_dps]. destruct (q_data_addr_valid p); [reflexivity|]. cbn [optb app].
  destruct (optb (q_data_ra_valid p) _); destruct (if q_data_ra_valid p then _ else None); destruct (optb (q_data_ps_valid p) _);
    destruct (discontinuity p c); try reflexivity; rewrite flat_map_app, list_pick; destruct (q_insn_ra_valid c); cbn [flat_map]; rewrite ?list_pick;
    destruct (q_insn_ps_valid c), (t_walk t); reflexivity.
Qed.
Lemma w_dsize : pick p_dsize L = optb (q_data_ps_valid p) (if swapped p c then q_ginsn_ps c else q_data_ps p).
Proof.
  unfold pick, notes_of, data_seen, insn_seen. rewrite !flat_map_app, !list_pick, term_pick by reflexivity.
  cbn [expected_one v_daddr v_dra v_dwalk v_dps].
  destruct (optb (q_data_addr_valid p) _); destruct (optb (q_data_ra_valid p) _); destruct (if q_data_ra_valid p then _ else None);
    cbn [p_dsize app]; (destruct (q_data_ps_valid p); [reflexivity|]); cbn [optb app];
    destruct (discontinuity p c); try reflexivity; rewrite flat_map_app, list_pick; destruct (q_insn_ra_valid c); cbn [flat_map]; rewrite ?list_pick;
    destruct (q_insn_ps_valid c), (t_walk t); reflexivity.
Qed.
Lemma w_isize : pick p_isize L = if discontinuity p c then optb (q_insn_ps_valid c) (q_insn_ps c) else None.
Proof.
  unfold pick, notes_of, data_seen, insn_seen. rewrite !flat_map_app, !list_pick, term_pick by reflexivity.
  cbn [expected_one v_daddr v_dra v_dwalk v_dps].
  destruct (optb (q_data_addr_valid p) _); destruct (optb (q_data_ra_valid p) _); destruct (if q_data_ra_valid p then _ else None);
    destruct (optb (q_data_ps_valid p) _); cbn [p_isize app];
    destruct (discontinuity p c); try reflexivity; rewrite flat_map_app, list_pick; destruct (q_insn_ra_valid c); cbn [flat_map]; rewrite ?list_pick;
    destruct (q_insn_ps_valid c), (t_walk t); reflexivity.
Qed.
Lemma w_drpn : pick p_drpn L = option_map (fun ra => ra / 2 ^ dflt (v_dps (expected_one t p c)) 16) (v_dra (expected_one t p c)).
Proof.
  unfold pick, notes_of, data_seen, insn_seen. rewrite !flat_map_app, !list_pick, term_pick by reflexivity.
  cbn [expected_one v_daddr v_dra v_dwalk v_dps].
  destruct (optb (q_data_addr_valid p) _); cbn [p_drpn app]; (destruct (q_data_ra_valid p); [reflexivity|]); cbn [optb app option_map];
    destruct (optb (q_data_ps_valid p) _); cbn [p_drpn app];
    destruct (discontinuity p c); try reflexivity; rewrite flat_map_app, list_pick; destruct (q_insn_ra_valid c); cbn [flat_map]; rewrite ?list_pick;
    destruct (q_insn_ps_valid c), (t_walk t); reflexivity.
Qed.
Lemma pair_sized : shifts_ok p -> shifts_ok c -> sized L = true.
Proof.
  intros (_ & _ & P & _) (C1 & C2 & _). unfold sized. rewrite w_isize, w_data, w_dsize. apply andb_true_intro. split.
  - destruct (discontinuity p c); [|reflexivity]. destruct (q_insn_ps_valid c); [|reflexivity]. cbn. specialize (C1 eq_refl). lia.
  - destruct (q_data_addr_valid p); [|reflexivity]. cbn [optb]. destruct (q_data_ps_valid p) eqn:V; [|reflexivity]. cbn [optb below].
    destruct (swapped p c) eqn:S; [|specialize (P eq_refl); lia]. unfold swapped in S. destruct (q_ginsn_ps_valid c); [specialize (C2 eq_refl); lia|].
    rewrite andb_false_r in S. discriminate S.
Qed.
Lemma pair_data : typed p -> small p -> q_ginsn_ps_valid c = false -> data_lines L = own_data p.
Proof.
  intros T (_ & S) G. unfold data_lines, own_data. rewrite w_data, w_dsize, w_drpn.
  destruct (q_data_addr_valid p); [|reflexivity]. cbn [optb]. f_equal.
  assert (SW : swapped p c = false) by (unfold swapped; rewrite G, andb_false_r; reflexivity).
  cbn [expected_one v_dps v_dra]. rewrite SW. f_equal.
  - f_equal.
    + do 2 f_equal. apply N.mod_small, T.
    + destruct (q_data_ra_valid p); [|reflexivity]. destruct (S eq_refl) as (-> & -> & B). cbn [optb option_map page dflt].
      f_equal. unfold ra_of, rpn_of. cbn [dflt].
      assert (H : q_data_ra p / 2 ^ 12 < 2 ^ 32) by (apply N.div_lt_upper_bound; [discriminate|]; exact B).
      rewrite (N.mod_small (q_data_ra p / 2 ^ 12)) by exact H. set (k := q_data_ra p / 2 ^ 12) in *.
      assert (K : k * 2 ^ 12 < 2 ^ 64) by (change (2 ^ 32) with 4294967296 in H; change (2 ^ 12) with 4096; change (2 ^ 64) with 18446744073709551616; lia).
      rewrite (N.mod_small (k * 2 ^ 12)) by exact K. rewrite N.div_add_l by discriminate.
      match goal with |- context [?a mod 2 ^ 12 / 2 ^ 12] => rewrite (N.div_small (a mod 2 ^ 12)) by (apply N.mod_lt; discriminate) end.
      rewrite N.add_0_r. change 4096 with (2 ^ 12). exact (N.mod_small _ _ K).
  - destruct (q_data_ps_valid p); reflexivity.
Qed.
End pair.

Lemma frames_shifts rs : frames rs -> Forall shifts_ok rs.
Proof.
  assert (C : forall rs p, chain_frames p rs -> Forall shifts_ok rs).
  { induction rs0 as [|r rs0 IH]; intros p F; [constructor|]. destruct F as (_ & T & _ & _ & F). constructor; [exact T|exact (IH _ F)]. }
  destruct rs as [|r rs]; intros F; [constructor|]. destruct F as (_ & T & _ & _ & F). constructor; [exact T|exact (C _ _ F)].
Qed.
Lemma successor_ok p : shifts_ok (successor p).
Proof. unfold shifts_ok, successor. cbn. repeat split; discriminate. Qed.
Lemma notes_sized : forall n rs t p, (List.length rs <= n)%nat -> shifts_ok p -> Forall shifts_ok rs -> Forall (fun l => sized l = true) (notes_from t p rs).
Proof.
  induction n as [|n IH]; intros rs t p L P F; destruct rs as [|c rs]; cbn [List.length] in L; try lia; cbn [notes_from];
    try (constructor; [apply pair_sized; [exact P|apply successor_ok]|constructor]).
  pose proof (Forall_inv F) as C. apply Forall_inv_tail in F. constructor; [now apply pair_sized|].
  destruct (is_prefix_word (q_insn p)); [|apply IH; [lia|exact C|exact F]].
  destruct rs as [|c2 rs]; [constructor|]. cbn [List.length] in L. apply IH; [lia|exact (Forall_inv F)|exact (Forall_inv_tail F)].
Qed.
Lemma notes_data : forall n rs t p, (List.length rs <= n)%nat -> typed p -> small p -> Forall typed rs -> Forall small rs ->
  flat_map data_lines (notes_from t p rs) = flat_map own_data (firsts (p :: rs)).
Proof.
  induction n as [|n IH]; intros rs t p L TP P T F; destruct rs as [|c rs]; cbn [List.length] in L; try lia; cbn [notes_from].
  1,2: cbn [firsts flat_map]; rewrite pair_data by (assumption || reflexivity); destruct (is_prefix_word (q_insn p)); reflexivity.
  pose proof (Forall_inv F) as C. apply Forall_inv_tail in F. pose proof (Forall_inv T) as TC. apply Forall_inv_tail in T.
  change (firsts (p :: c :: rs)) with (p :: (if is_prefix_word (q_insn p) then firsts rs else firsts (c :: rs))).
  cbn [flat_map]. rewrite pair_data by (assumption || apply C). f_equal.
  destruct (is_prefix_word (q_insn p)); [|apply IH; (lia || assumption)].
  destruct rs as [|c2 rs]; [reflexivity|]. cbn [List.length] in L.
  apply IH; [lia|exact (Forall_inv T)|exact (Forall_inv F)|exact (Forall_inv_tail T)|exact (Forall_inv_tail F)].
Qed.
Lemma until_all {A} (f : A -> bool) l : forallb f l = true -> until f l = l.
Proof. induction l as [|x l IH]; [reflexivity|]. cbn [forallb until]. intros H. apply andb_prop in H as [-> H]. now rewrite IH. Qed.

Lemma written_dump magic rs slack :
  magic < 2 ^ 32 -> frames rs -> closes rs -> complete rs = true -> (4 <= List.length slack)%nat ->
  exists bytes, write_trace magic rs = inr bytes /\ snd (qtdis_dump slack bytes) = QDone /\
    dreads (fst (qtdis_dump slack bytes)) =
    flat_map (fun x => dlines (fst x) (snd x)) (combine (List.map q_insn_addr (firsts rs)) (trace_notes rs)).
Proof.
  intros M F C K S. destruct (Verbose_Props.C63_written magic rs slack M F C K S) as (bytes & x & W & R & A & B).
  exists bytes. split; [exact W|]. destruct (dump_read slack bytes) as (D & E). rewrite R in D, E. cbn [fst snd] in D, E.
  assert (A1 : List.map v_ea x = List.map q_insn_addr (firsts rs)).
  { apply (f_equal (List.map fst)) in A. rewrite !map_map in A. exact A. }
  assert (Z : Forall (fun l => sized l = true) (trace_notes rs)).
  { pose proof (frames_shifts rs F) as T. destruct rs as [|r rs]; [constructor|]. apply (notes_sized (List.length rs)); [lia|exact (Forall_inv T)|exact (Forall_inv_tail T)]. }
  assert (Q : forallb (fun v => sized (noted v)) x = true).
  { apply forallb_forall. intros v I. rewrite <- B in Z. rewrite Forall_forall in Z. apply Z. apply (in_map noted) in I. exact I. }
  rewrite Q in E. rewrite until_all in D by exact Q. split; [exact E|]. rewrite D, <- A1, <- B.
  change (List.map (fun v => flat_map seen (v_notes v)) x) with (List.map noted x). clear.
  induction x as [|v x IH]; [reflexivity|]. cbn [List.map combine flat_map fst snd]. now rewrite IH.
Qed.
Lemma data_only : forall l a, List.length a = List.length l ->
  filter is_data (flat_map (fun x => dlines (fst x) (snd x)) (combine a l)) = flat_map data_lines l.
Proof.
  induction l as [|n l IH]; intros [|a0 a] E; try discriminate E; [reflexivity|]. cbn [combine flat_map fst snd]. rewrite filter_app, IH by (cbn in E; lia).
  f_equal. unfold dlines, fetch_line, data_lines. cbn [filter is_data fst snd]. destruct (pick p_data n); reflexivity.
Qed.
Lemma small_dump magic rs slack :
  magic < 2 ^ 32 -> frames rs -> closes rs -> complete rs = true -> (4 <= List.length slack)%nat -> Forall small rs ->
  exists bytes, write_trace magic rs = inr bytes /\ filter is_data (dreads (fst (qtdis_dump slack bytes))) = flat_map own_data (firsts rs).
Proof.
  intros M F C K S P. destruct (written_dump magic rs slack M F C K S) as (bytes & W & _ & D). exists bytes. split; [exact W|]. rewrite D.
  destruct (Verbose_Props.C63_written magic rs slack M F C K S) as (bytes' & x & _ & _ & A & B).
  rewrite data_only.
  - pose proof (frames_typed rs F) as T. destruct rs as [|r rs]; [reflexivity|].
    apply (notes_data (List.length rs)); [lia|exact (Forall_inv T)|exact (Forall_inv P)|exact (Forall_inv_tail T)|exact (Forall_inv_tail P)].
  - apply (f_equal (@List.length _)) in A. apply (f_equal (@List.length _)) in B. rewrite !map_length in *. congruence.
Qed.

(** Data in a page of 64k *)
Definition large_rec : qrec :=
  mk_qrec 0xe8610008 0x10000 false 0 false 0 true 0x500018 true 0x1230018 true 16 false false false 0 false 0 zero_radix zero_radix.
Definition large_next : qrec := ex_rec 0x60000000 0x10004 None None false.
Definition large_bytes : list N := ex_bytes [large_rec; large_next].
Lemma large_frames : frames [large_rec; large_next] /\ closes [large_rec; large_next].
Proof.
  assert (TZ : typed_radix zero_radix).
  { unfold typed_radix, word64s, zero_radix. cbn [rx_host_ptes rx_host_real rx_guest_real repeat].
    repeat (apply conj || constructor || reflexivity). }
  assert (T1 : typed large_rec).
  { unfold typed, large_rec. cbn [q_insn q_insn_addr q_insn_ra q_data_addr q_data_ra q_radix_insn q_radix_data].
    repeat split; try reflexivity; try apply TZ; reflexivity. }
  assert (T2 : typed large_next).
  { unfold typed, large_next, ex_rec. cbn [q_insn q_insn_addr q_insn_ra q_data_addr q_data_ra q_radix_insn q_radix_data].
    repeat split; try reflexivity; try apply TZ; reflexivity. }
  split.
  - unfold frames, chain_frames. split; [exact T1|]. split; [unfold shifts_ok; cbn; repeat split; intros; lia|].
    split; [cbn; discriminate|]. split.
    { unfold header_frames, storable. cbn. repeat split; intros; auto; lia. }
    split; [exact T2|]. split; [unfold shifts_ok; cbn; repeat split; intros; lia|].
    split; [cbn; discriminate|]. split; [|exact Logic.I].
    unfold pair_frames, storable. cbn. repeat split; intros; auto; try lia; try discriminate.
  - unfold closes. cbn. discriminate.
Qed.
Lemma large_wrong : ~ forall rs bytes d ra, frames rs -> closes rs -> write_trace 0 rs = inr bytes ->
  In d (dreads (fst (qtdis_dump [0; 0; 0; 0] bytes))) -> is_data d = true -> snd (fst d) = Some ra ->
  exists r, In r rs /\ ra = q_data_ra r / 4096 * 4096.
Proof.
  intros H. specialize (H [large_rec; large_next] large_bytes (true, Some 0x500018, Some 0x123000, Some 0x10000) 0x123000
    (proj1 large_frames) (proj2 large_frames)).
  assert (W : write_trace 0 [large_rec; large_next] = inr large_bytes) by (vm_compute; reflexivity).
  assert (D : dreads (fst (qtdis_dump [0; 0; 0; 0] large_bytes)) =
    [(false, Some 0x10000, None, None); (true, Some 0x500018, Some 0x123000, Some 0x10000); (false, Some 0x10004, None, None)]) by (vm_compute; reflexivity).
  rewrite D in H. destruct (H W (or_intror (or_introl eq_refl)) eq_refl eq_refl) as (r & I & E).
  destruct I as [<-|[<-|[]]]; vm_compute in E; discriminate E.
Qed.
