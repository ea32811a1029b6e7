(** The listing of written traces. *)
Require Import NArith List Bool String Lia.
Require Import Verif.Codec_Types Verif.Writer_Model Verif.Reader_Model Verif.Codec_Spec Verif.Qtdis_Model Verif.Qtdis_Spec.
Require Import Verif.Qtdis_Proofs3 Verif.Verbose_Model Verif.Verbose_Spec Verif.Vtext_Model Verif.Vtext_Spec Verif.Vtext_Proofs.
Require Verif.Verbose_Props Verif.Vectors_Proofs.
Import ListNotations.
Local Open Scope N_scope.
Local Open Scope list_scope.

Lemma listing_read sym dis (le raw : bool) slack file : plain sym dis ->
  readings le raw (qtdis_verbose sym dis le raw slack file) = List.map (line_reading raw) (fst (read_verbose slack file)).
Proof. intros P. apply text_read; [exact P|apply Verbose_Props.C63_mark]. Qed.

Lemma frames_typed rs : frames rs -> Forall typed rs.
Proof.
  assert (C : forall rs p, chain_frames p rs -> Forall typed rs).
  { induction rs0 as [|r rs0 IH]; intros p F; [constructor|]. destruct F as (T & _ & _ & _ & F). constructor; [exact T|exact (IH _ F)]. }
  destruct rs as [|r rs]; intros F; [constructor|]. destruct F as (T & _ & _ & _ & F). constructor; [exact T|exact (C _ _ F)].
Qed.
Lemma firsts_typed : forall n rs, (List.length rs <= n)%nat -> Forall typed rs -> Forall typed (firsts rs).
Proof.
  induction n as [|n IH]; intros rs L F; destruct rs as [|r rs]; cbn [List.length] in L; try lia; try constructor.
  - exact (Forall_inv F).
  - apply Forall_inv_tail in F. destruct (is_prefix_word (q_insn r)); [|apply IH; [lia|exact F]].
    destruct rs as [|r2 rs]; [constructor|]. cbn [List.length] in L. apply IH; [lia|exact (Forall_inv_tail F)].
Qed.
Lemma filter_flat {A B} (f : B -> bool) (g : A -> list B) l : filter f (flat_map g l) = flat_map (fun x => filter f (g x)) l.
Proof. induction l as [|x l IH]; [reflexivity|]. cbn [flat_map]. now rewrite filter_app, IH. Qed.
Lemma walk_hidden w : filter nowalk (walk_pieces w) = [].
Proof.
  unfold walk_pieces. rewrite filter_flat. induction (seq 0 (N.to_nat (rx_walks w))) as [|j js IH]; [reflexivity|].
  cbn [flat_map]. rewrite IH, app_nil_r. cbn [filter nowalk]. rewrite filter_app.
  replace (filter nowalk (List.map _ _)) with (@nil piece).
  - destruct (N.of_nat (S j) <? rx_walks w); reflexivity.
  - clear IH. induction (seq 0 (N.to_nat (rx_nr_ptes w))) as [|i is I]; [reflexivity|]. cbn [List.map filter nowalk]. exact I.
Qed.
Lemma note_masked n : filter nowalk (note_pieces n) = flat_map masked (seen n).
Proof.
  destruct n; try reflexivity; cbn [note_pieces filter nowalk seen]; rewrite walk_hidden; destruct (walk_of _ _); reflexivity.
Qed.

Lemma written_read sym dis (le raw : bool) magic rs slack : plain sym dis ->
  magic < 2 ^ 32 -> frames rs -> closes rs -> complete rs = true -> (4 <= List.length slack)%nat ->
  exists bytes, write_trace magic rs = inr bytes /\
    let l := readings le raw (qtdis_verbose sym dis le raw slack bytes) in
    List.map (fun x => fst (fst x)) l = List.map q_insn_addr (firsts rs) /\
    (raw = true -> List.map (fun x => hd 0 (snd (fst x))) l = List.map q_insn (firsts rs)) /\
    List.map (fun x => filter nowalk (snd x)) l = List.map (flat_map masked) (trace_notes rs).
Proof.
  intros P M F C K S. destruct (Verbose_Props.C63_written magic rs slack M F C K S) as (bytes & x & W & R & A & B).
  exists bytes. split; [exact W|]. cbv zeta. rewrite (listing_read sym dis le raw slack bytes P), R. cbn [fst].
  pose proof (firsts_typed _ rs (le_n _) (frames_typed rs F)) as T.
  assert (A1 : List.map v_ea x = List.map q_insn_addr (firsts rs)).
  { apply (f_equal (List.map fst)) in A. rewrite !map_map in A. exact A. }
  assert (A2 : List.map (fun v => hd 0 (v_words v)) x = List.map q_insn (firsts rs)).
  { apply (f_equal (List.map snd)) in A. rewrite !map_map in A. exact A. }
  rewrite !map_map. cbn [line_reading fst snd]. split; [|split].
  - rewrite <- (map_map v_ea (fun a => a mod 2 ^ 64)), A1, map_map. apply map_ext_in. intros r I.
    rewrite Forall_forall in T. apply N.mod_small, (T _ I).
  - intros ->. rewrite (map_ext _ (fun v => (hd 0 (v_words v)) mod 2 ^ 32)) by (intros v; unfold line_reading; cbn [fst snd]; destruct (v_words v); reflexivity).
    rewrite <- (map_map (fun v => hd 0 (v_words v)) (fun a => a mod 2 ^ 32)), A2, map_map. apply map_ext_in. intros r I.
    rewrite Forall_forall in T. apply N.mod_small, (T _ I).
  - rewrite <- B, map_map. apply map_ext. intros v. rewrite filter_flat, flat_flat. apply flat_map_ext. intros n. apply note_masked.
Qed.

(** The guest address of a single walk is not in the file. *)
Definition guest_walk : radix :=
  mk_radix HOST_RADIX 4 1 [[1; 2; 3; 4]; repeat 0 4; repeat 0 4; repeat 0 4; repeat 0 4] (repeat 0 4) (0x77000 :: repeat 0 4).
Definition guest_from : qrec := Vectors_Proofs.walked_rec 0x48000ff8 0x10004 0x2350004 true guest_walk.
Definition guest_to : qrec := Vectors_Proofs.walked_rec 0x60000000 0x30000 0x7770000 false guest_walk.
Lemma guest_frames : frames [guest_from; guest_to] /\ closes [guest_from; guest_to].
Proof.
  assert (TR : typed_radix guest_walk).
  { unfold typed_radix, word64s, guest_walk. cbn [rx_host_ptes rx_host_real rx_guest_real repeat].
    repeat (apply conj || constructor || assumption || reflexivity). }
  assert (TZ : typed_radix zero_radix).
  { unfold typed_radix, word64s, zero_radix. cbn [rx_host_ptes rx_host_real rx_guest_real repeat].
    repeat (apply conj || constructor || reflexivity). }
  assert (T1 : typed guest_from).
  { unfold typed, guest_from, Vectors_Proofs.walked_rec. cbn [q_insn q_insn_addr q_insn_ra q_data_addr q_data_ra q_radix_insn q_radix_data].
    repeat split; try reflexivity; try apply TR; try apply TZ; reflexivity. }
  assert (T2 : typed guest_to).
  { unfold typed, guest_to, Vectors_Proofs.walked_rec. cbn [q_insn q_insn_addr q_insn_ra q_data_addr q_data_ra q_radix_insn q_radix_data].
    repeat split; try reflexivity; try apply TR; try apply TZ; reflexivity. }
  split.
  - unfold frames, chain_frames. split; [exact T1|]. split; [unfold shifts_ok; cbn; repeat split; intros; lia|].
    split; [cbn; discriminate|]. split.
    { unfold header_frames, storable. cbn. repeat split; intros; auto; lia. }
    split; [exact T2|]. split; [unfold shifts_ok; cbn; repeat split; intros; lia|].
    split; [cbn; discriminate|]. split; [|exact Logic.I].
    unfold pair_frames, storable. cbn. repeat split; intros; auto; try lia; try discriminate.
  - unfold closes. cbn. discriminate.
Qed.
Definition bare_sym (_ : N) : option (list N * N) := None.
Definition bare_dis (_ : N) (_ : list N) : list N := [].
Lemma guest_wrong : ~ forall rs bytes l a, frames rs -> closes rs -> write_trace 0 rs = inr bytes ->
  In (PGuest l a) (flat_map snd (readings true true (qtdis_verbose bare_sym bare_dis true true [0; 0; 0; 0] bytes))) ->
  exists r, In r rs /\ nth (N.to_nat (l - 1)) (rx_guest_real (q_radix_insn r)) 0 = a.
Proof.
  intros H. destruct guest_frames as [F C].
  specialize (H _ (ex_bytes [guest_from; guest_to]) 1 0 F C).
  assert (W : write_trace 0 [guest_from; guest_to] = inr (ex_bytes [guest_from; guest_to])) by (vm_compute; reflexivity).
  specialize (H W). clear W.
  destruct H as (r & I & E).
  - vm_compute. tauto.
  - destruct I as [<-|[<-|[]]]; vm_compute in E; discriminate E.
Qed.
