(** C77: POWER10 traces whose walks are resumed. *)
Require Import NArith ZArith List Bool.
Require Import Verif.Word Verif.Codec_Types Verif.Codec_Spec Verif.HtmBits_Spec Verif.Reader_Model.
Require Import Verif.Pwc_Model Verif.Pwc_Spec Verif.Xlate_Model Verif.Xlate_Spec.
Require Import Verif.Htm_Model Verif.Trace_Spec Verif.Trace8_Proofs5 Verif.Trace10_Spec Verif.Trace10_Proofs7.
Require Import Verif.Retrace_Spec Verif.Retrace_Proofs.
Require Import Verif.Convert_Model Verif.Convert_Spec Verif.Convert_Proofs4.
Require Verif.Tlb_Model Verif.Bb_Model Verif.Trace10_Props Verif.Convert_Props.
Require Verif.Resume_Spec Verif.Resume_Props.
Import ListNotations.
Local Open Scope N_scope.

(** For all two traces of the same execution, whatever steps their walks leave
    out as long as some page tables explain them (see C76): both decode, to
    records that say the same, with the same instructions, basic blocks and
    counters. *)
Theorem C77_decoded : forall qs stale junk full bad items items',
  (forall z, length (stale z) = 8%nat) -> Forall2 same_item items items' ->
  let ws := file10 full start10 items in
  let ws' := file10 full start10 items' in
  (Z.of_nat (length ws) < 2 ^ 30)%Z -> (Z.of_nat (length ws') < 2 ^ 30)%Z ->
  trace10_ok full start10 items -> trace10_ok full start10 items' ->
  bad = true \/ other (be_val (stale (Z.of_nat (length ws)))) /\ other (be_val (stale (Z.of_nat (length ws')))) ->
  exists s s' es, htm_decode qs stale junk full (bytes_of ws) bad = HOk s
    /\ htm_decode qs stale junk full (bytes_of ws') bad = HOk s'
    /\ Forall2 tells es (h_out s) /\ Forall2 tells es (h_out s')
    /\ h_log s = h_log s' /\ h_bb s = h_bb s'
    /\ (forall c, counted c -> h_stat s c = h_stat s' c).
Proof. exact same_decoded. Qed.
Print Assumptions C77_decoded.

(** Likewise for the qtrace files htmdecoder writes. *)
Theorem C77_converted : forall qs stale junk bad items items' slack, (forall n, quiet10 (junk n)) ->
  (forall z, length (stale z) = 8%nat) -> Forall2 same_item items items' ->
  let ws := file10 true start10 items in
  let ws' := file10 true start10 items' in
  (Z.of_nat (length ws) < 2 ^ 30)%Z -> (Z.of_nat (length ws') < 2 ^ 30)%Z ->
  trace10_ok true start10 items -> trace10_ok true start10 items' -> Forall worded10 items ->
  bad = true \/ other (be_val (stale (Z.of_nat (length ws)))) /\ other (be_val (stale (Z.of_nat (length ws')))) ->
  (4 <= length slack)%nat ->
  exists file file' l, htmdecoder qs stale junk (bytes_of ws) bad = COk file
    /\ htmdecoder qs stale junk (bytes_of ws') bad = COk file'
    /\ converted l (map view_of (fst (read_trace false false slack file)))
    /\ converted l (map view_of (fst (read_trace false false slack file')))
    /\ snd (read_trace false false slack file) = EndFalse /\ snd (read_trace false false slack file') = EndFalse.
Proof. exact same_converted. Qed.
Print Assumptions C77_converted.

(** The walk of an instruction's record is the walk of its address through the
    page tables, with the sizes of its pages. *)
Theorem C77_walk : forall T i z full y, Resume_Spec.tables_ok T -> insn10_ok i z (Some T) full -> full = true ->
  i_given i z = Some y -> t_esid i = false ->
  let q := asked y (ea10 i z) in
  record_of10 i z <> []
  /\ match record_of10 i z with
     | EInsn10 _ _ ira _ _ _ _ gips _ iwalk _ :: _ =>
         iwalk = Some (fw_radix (Resume_Spec.whole_walk T q))
         /\ ira = Some (ra10 i z + ea10 i z mod 4096, Resume_Spec.shift_at T (Resume_Spec.rq_final q))
         /\ gips = Some (Resume_Spec.shift_at T (Resume_Spec.rq_guest q))
     | _ => False
     end.
Proof. exact resumed_walk. Qed.
Print Assumptions C77_walk.

(** The machine of C76.  An instruction with a complete walk; a load in the next
    page with a resumed walk and data in a third page, with another. *)
Definition T := Resume_Props.ex_T false.
Definition ex_q (a : N) : Resume_Spec.request :=
  let g := Resume_Spec.real_at T (Resume_Spec.in_guest 1 42 a) in
  Resume_Spec.mk_rq 1 42 a None g (Resume_Spec.page_4k (Resume_Spec.real_at T (Resume_Spec.in_host 1 g))) 0 1.
Definition whole : Resume_Spec.cut := Resume_Spec.mk_cut (O, true) (repeat (Some (O, true)) 4) O.
Definition ex_y (d : bool) (a : N) (c : Resume_Spec.cut) : xl :=
  let t := Resume_Spec.whole_walk T (ex_q a) in
  mk_xl [] d 1 42 0 0 (map (fun w => ([], w, 0)) (Resume_Spec.cut_records t c)) ([], zero_walk, 0) t.
Definition ex_at (a : N) : option ((stamps * N * N) * sword * sword) :=
  Some (([], 0, 0), ([], a), ([], Resume_Spec.rq_real (ex_q a) * 2 ^ 12)).
Definition ex_trace (c2 c3 : Resume_Spec.cut) : list item10 :=
  [JInsn (mk_insn10 [ex_y false 0x10000328 whole] (ex_at 0x10000328) [] [] 0x38630001 0x38630001 false 10 false
            ([], GUEST) None []);
   JInsn (mk_insn10 [ex_y false 0x10001340 c2] (ex_at 0x10001340) [ex_y true 0x10012348 c3] [] 0xE8640008 0xE8640008
            false 16 false ([], GUEST) None [(([], 0x10012348), ([], Resume_Spec.rq_real (ex_q 0x10012348) * 2 ^ 11))])].
Definition ex_c2 := Resume_Spec.mk_cut (O, true) [None; None; None; Some (4%nat, false)] 4.
Definition ex_c3 := Resume_Spec.mk_cut (O, true) [None; None; Some (3%nat, true); Some (4%nat, true)] 3.
Definition ex_resumed := ex_trace ex_c2 ex_c3.
Definition ex_complete := ex_trace whole whole.

Ltac cut_tac g :=
  split; [intros ? ? X; discriminate X|]; split; [|split; [vm_compute; repeat constructor; discriminate|Resume_Props.host_tac T g]];
  change (Resume_Spec.steps _ _) with [XLATE_PGD; XLATE_PUD; XLATE_PMD; XLATE_4K_PTE];
  cbn [Resume_Spec.ct_guest ex_c2 ex_c3 whole repeat];
  repeat apply Forall2_cons; try apply Forall2_nil; Resume_Props.level_tac T g.
Ltac given_tac h a c g :=
  match goal with |- given_ok ?t ?h0 _ _ ?o ?a0 ?r0 =>
    replace h0 with h by (vm_compute; reflexivity); replace a0 with a by (vm_compute; reflexivity);
    replace r0 with (Resume_Spec.rq_real (ex_q a)) by (vm_compute; reflexivity)
  end;
  match goal with |- given_ok _ _ _ _ ?o _ _ =>
    first [replace o with (Some (ex_y false a c)) by (vm_compute; reflexivity)
          |replace o with (Some (ex_y true a c)) by (vm_compute; reflexivity)] end;
  split; [vm_compute; reflexivity|]; split; [vm_compute; reflexivity|]; split; [vm_compute; reflexivity|];
  match goal with |- Resume_Spec.request_ok _ (asked ?y _) /\ _ =>
    replace (asked y a) with (ex_q a) by (vm_compute; reflexivity) end;
  split; [Resume_Props.rq_tac|]; split; [vm_compute; reflexivity|]; exists c; split; [cut_tac g|vm_compute; reflexivity].
Ltac head_tac := Trace10_Props.insn_ok; split; [split; Trace10_Props.fact10|];
  split; [constructor; [apply xl_check; Trace10_Props.fact10|constructor]|].
Ltac ex_tac c2 c3 :=
  exists (Some T); split; [apply Resume_Props.ex_T_ok|];
  cbn [trace10_by ex_resumed ex_complete ex_trace item10_ok]; split; [|split; [|exact I]];
  [ head_tac; split; [constructor|];
    split; [apply Nat.leb_le; Trace10_Props.fact10|]; split; [apply Nat.leb_le; Trace10_Props.fact10|];
    split; [apply Nat.leb_le; Trace10_Props.fact10|];
    split; [discriminate|]; split; [intros X; discriminate X|]; split; [intros _ _; vm_compute; discriminate|];
    split; [intros X; contradiction|]; intros _; split; [given_tac (@nil Resume_Spec.request) 0x10000328 whole (ex_q 0x10000328)|];
    split; [exact I|]; split; [intros _; right; Trace10_Props.fact10|exact I]
  | head_tac; split; [constructor; [apply xl_check; Trace10_Props.fact10|constructor]|];
    split; [apply Nat.leb_le; Trace10_Props.fact10|]; split; [apply Nat.leb_le; Trace10_Props.fact10|];
    split; [apply Nat.leb_le; Trace10_Props.fact10|];
    split; [discriminate|]; split; [intros X; discriminate X|]; split; [intros _ _; vm_compute; discriminate|];
    split; [intros _; discriminate|]; intros _; split; [given_tac [ex_q 0x10000328] 0x10001340 c2 (ex_q 0x10000328)|];
    split; [split; [given_tac [ex_q 0x10001340; ex_q 0x10000328] 0x10012348 c3 (ex_q 0x10000328)|exact I]|];
    split; [intros _; right; Trace10_Props.fact10|right; Trace10_Props.fact10] ].
Example C77_ex_resumed : trace10_ok true start10 ex_resumed.
Proof. ex_tac ex_c2 ex_c3. Qed.
Example C77_ex_complete : trace10_ok true start10 ex_complete.
Proof. ex_tac whole whole. Qed.
Example C77_ex_same : Forall2 same_item ex_resumed ex_complete.
Proof.
  repeat constructor; try (intros r; unfold ends_at; vm_compute (rev _); reflexivity).
Qed.
(** The two resumed walks have 3 and 8 steps instead of 29 each. *)
Example C77_ex_words :
  map (fun l => length (file10 true start10 l)) [ex_resumed; ex_complete] = [58%nat; 105%nat]
  /\ map (fun c => length (Resume_Spec.cut_records (Resume_Spec.whole_walk T (ex_q 0x10001340)) c)) [ex_c2; ex_c3; whole]
     = [3; 8; 29]%nat.
Proof. vm_compute. split; reflexivity. Qed.
Example C77_ex_files : views (conv (file10 true start10 ex_resumed)) = views (conv (file10 true start10 ex_complete))
  /\ map (fun v => (v_insn v, v_addr v, v_ra v, v_ps v, v_gps v, v_daddr v, v_dps v,
      option_map (fun w => (length (k_entries w), nth 4 (k_greal w) 0)) (v_walk v)))
    (views (conv (file10 true start10 ex_resumed)))
  = [(0x38630001, 0x10000328, Some 0x21000328, Some 16, Some 12, None, None, Some (5%nat, 0x1000328));
     (0xE8640008, 0x10001340, Some 0x21001340, Some 16, Some 12, Some 0x10012348, Some 16, Some (5%nat, 0x1001340))].
Proof. vm_compute. split; reflexivity. Qed.
