(** C56: POWER10 traces, from the file to the records. *)
Require Import NArith ZArith List Bool.
Require Import Verif.Word Verif.Codec_Types Verif.HtmBits_Spec Verif.Pwc_Model Verif.Pwc_Spec Verif.Xlate_Model Verif.Xlate_Spec.
Require Import Verif.Htm_Model Verif.Trace_Spec Verif.Trace8_Proofs5.
Require Import Verif.Trace10_Spec Verif.Trace10_Proofs6 Verif.Trace10_Proofs7.
Require Verif.Tlb_Model Verif.Tlb_Props Verif.Bb_Model.
Import ListNotations.
Local Open Scope N_scope.

(** For every sequence of stamps, instructions and other words, and every
    content of buffers and of uninitialised records: decoding the file
    succeeds; the records are those the words stand for, in order.  The
    translation of an instruction is the walk in the trace for its page, or
    the latest walk for the largest page around the address; that of an
    instruction without address words is the one before it.  Instructions, basic
    block addresses and counters are those of the trace. *)
Theorem C56_trace10 : forall qs stale junk full bad items,
  (forall z, length (stale z) = 8%nat) ->
  let ws := file10 full start10 items in
  (Z.of_nat (length ws) < 2 ^ 30)%Z -> trace10_ok full start10 items ->
  bad = true \/ other (be_val (stale (Z.of_nat (length ws)))) ->
  exists s, htm_decode qs stale junk full (bytes_of ws) bad = HOk s
    /\ Forall2 tells (if full then records10 full start10 items else []) (h_out s)
    /\ h_log s = insns10 full start10 items
    /\ Bb_Model.bb_run (map fst (insns10 full start10 items)) = Bb_Model.BOk (h_bb s)
    /\ (forall c, counted c -> h_stat s c = count_of c (events10 full start10 items) mod 2 ^ 32).
Proof. exact trace10. Qed.
Print Assumptions C56_trace10.

(** A load with walks for its address and its data, and a pause inside; a
    prefixed addition in the same line; an instruction of the same page with a
    data address of the same page, both without walk; a return from interrupt
    of the hypervisor. *)
Definition ex_load10 : insn10 :=
  mk_insn10 [xl_of false 1 2 (walk64k 0x70000 0x50123000)]
    (Some (([], 0, 0), ([], 0x10123400), ([], 0x50123000 * 2 ^ 12)))
    [xl_of true 1 2 (walk64k 0x90000 0x60045000)]
    [(0xACEFF20000000007, RPause 7)] 0xE8640008 0xE8640008 false 1 false ([], GUEST) None
    [(([], 0x20045678), ([], 0x60045000 * 2 ^ 11))].
Definition ex_prefixed10 : insn10 :=
  mk_insn10 [] None [] [] 0x38630001 0x38630001 false 2 false ([], GUEST) (Some ([], 0x06000000 * 2 ^ 32)) [].
Definition ex_again10 : insn10 :=
  mk_insn10 [] (Some (([], 0, 0), ([], 0x10123800), ([], 0x50123000 * 2 ^ 12))) [] [] 0xE8640010 0xE8640010 false 0 false
    ([], GUEST) None [(([], 0x20045680), ([], 0x60045000 * 2 ^ 11))].
Definition ex_host10 : insn10 :=
  mk_insn10 [] (Some (([], 0, 0), ([], 0xC000000000000100), ([], 0))) [] [] 0x4c000224 0x4c000224 false 3 false
    ([], 0x8000000000000000) None [].
Definition ex10 : list item10 :=
  [JInsn ex_load10; JInsn ex_prefixed10; JOther 0x1234; JInsn ex_again10; JInsn ex_host10].
Ltac whole_walk := unfold fw_ok, all_hosts, host_ok, walk64k, host2m; cbn; split;
  [repeat constructor | split; [repeat constructor | split; [right; split; [reflexivity|discriminate] | left; discriminate]]].
Ltac given := split; [vm_compute; reflexivity|split; [vm_compute; reflexivity|split; [vm_compute; reflexivity|split; [whole_walk|vm_compute; reflexivity]]]].
Ltac fact10 := first [exact I | vm_compute; reflexivity | (intros X; vm_compute in X; discriminate)
  | (intros [X Y]; vm_compute in X; vm_compute in Y; discriminate)].
Ltac insn_ok := split; [apply sword_check; vm_compute; reflexivity|]; split; [vm_compute; reflexivity|];
  split; [apply s10_other; fact10|]; split; [fact10|]; split; [fact10|]; split; [fact10|].
Example C56_ex_ok : trace10_ok true start10 ex10.
Proof.
  exists None. split; [exact I|]. cbn [trace10_by ex10 item10_ok]. split; [|split; [|split; [|split; [|split; [|exact I]]]]].
  - insn_ok. split; [split; fact10|]. split; [constructor; [apply xl_check; fact10|constructor]|].
    split; [constructor; [apply xl_check; fact10|constructor]|].
    split; [apply Nat.leb_le; fact10|]. split; [apply Nat.leb_le; fact10|]. split; [apply Nat.leb_le; fact10|].
    split; [discriminate|]. split; [intros X; discriminate X|]. split; [intros _ _; vm_compute; discriminate|].
    split; [intros _; discriminate|]. intros _. split; [given|]. split; [split; [given|exact I]|].
    split; [intros _; right; fact10|right; fact10].
  - insn_ok. split; [fact10|]. split; [constructor|]. split; [constructor|].
    split; [apply Nat.leb_le; fact10|]. split; [apply Nat.leb_le; fact10|]. split; [apply Nat.leb_le; fact10|].
    split; [discriminate|]. split; [intros X; discriminate X|]. split; [intros X; contradiction|].
    split; [intros X; contradiction|]. intros _. split; [exact I|]. split; [exact I|].
    split; [intros _; right; fact10|exact I].
  - repeat split; fact10.
  - insn_ok. split; [split; fact10|]. split; [constructor|]. split; [constructor|].
    split; [apply Nat.leb_le; fact10|]. split; [apply Nat.leb_le; fact10|]. split; [apply Nat.leb_le; fact10|].
    split; [discriminate|]. split; [intros X; discriminate X|]. split; [intros _ X; contradiction|].
    split; [intros X; contradiction|]. intros _. split; [exact I|]. split; [split; exact I|].
    split; [intros _; right; fact10|right; fact10].
  - split; [apply sword_check; vm_compute; reflexivity|]. split; [vm_compute; reflexivity|].
    split; [apply s10_other; fact10|]. split; [fact10|]. split; [fact10|]. split; [fact10|].
    split; [split; fact10|]. split; [constructor|]. split; [constructor|].
    split; [apply Nat.leb_le; fact10|]. split; [apply Nat.leb_le; fact10|]. split; [apply Nat.leb_le; fact10|].
    split; [discriminate|]. split; [intros X; discriminate X|]. split; [intros _ X; contradiction|].
    split; [intros X; contradiction|]. intros _. split; [exact I|]. split; [exact I|].
    split; [intros _; left; reflexivity|exact I].
Qed.
Example C56_ex_records : map (fun e => match e with
    | EInsn10 insn addr ira dea dra _ _ gips gdps iwalk dwalk =>
        (insn, addr, ira, dea, dra, gips, gdps, option_map (fun r => nth 4 (rx_guest_real r) 0) iwalk,
         option_map (fun r => nth 4 (rx_guest_real r) 0) dwalk)
    | _ => (0, 0, None, None, None, None, None, None, None) end) (records10 true start10 ex10)
  = [(0, 0, None, None, None, None, None, None, None);
     (0xE8640008, 0x10123404, Some (0x50123404, 21), Some 0x20045678, Some (0x60045678, 21), Some 16, Some 16,
      Some 0x70000, Some 0x90000);
     (0x06000000, 0x10123408, Some (0x50123408, 21), None, None, Some 16, None, Some 0x73408, None);
     (0x38630001, 0x1012340c, None, None, None, None, None, None, None);
     (0xE8640010, 0x10123800, Some (0x50123800, 21), Some 0x20045680, Some (0x60045680, 21), Some 16, Some 16,
      Some 0x73800, Some 0x95680);
     (0x4c000224, 0xC00000000000010c, None, None, None, None, None, None, None)].
Proof. vm_compute. reflexivity. Qed.
Example C56_ex_counts : map (fun c => count_of c (events10 true start10 ex10))
    [RecordsProcessed; InsnScanned; InsnProcessed; WithIXlate; WithDXlate; InsnPages 21; DataPages 21]
  = [5; 4; 4; 4; 2; 1; 1].
Proof. vm_compute. reflexivity. Qed.
Example C56_ex_decoded :
  match decode10 true ex10 with
  | HOk s => length (h_out s) = 6%nat
             /\ map fst (h_log s) = [0x10123404; 0x10123408; 0x10123800; 0xC00000000000010c]
             /\ map (fun r => match r with RInsn q => q_branch q | _ => false end) (h_out s) = [false; false; false; false; false; true]
             /\ h_stat s WithDXlate = 2
  | HErr _ => False
  end.
Proof. vm_compute. repeat split; reflexivity. Qed.

(** Conditions that cannot be left out.  The offset of the address in the host
    page is or-ed onto the real 4K page.  With guest pages smaller than the host
    page the result is another page. *)
Theorem C56_real_refuted : ~ forall a r s, a < 2 ^ 64 -> a mod 4 = 0 -> r < 2 ^ 52 -> r mod 4096 = 0 ->
  decode10 true [JInsn (load10 GUEST [xl_of false 1 2 (walk64k 0x70000 r)] a r)] = HOk s ->
  exists q, h_out s = [RInsn q] /\ q_insn_ra_valid q = true /\ q_insn_ra q = r + a mod 4096.
Proof. exact real_wrong. Qed.
Print Assumptions C56_real_refuted.

(** A third walk is written behind the array. *)
Theorem C56_walks_refuted : ~ forall l, Forall (xl_ok false) l ->
  decode10 true [JInsn (load10 GUEST l 0x10123404 0x50123000)] <> HErr HOob.
Proof. exact walks_overrun. Qed.
Print Assumptions C56_walks_refuted.

(** Walks of the hypervisor end the program. *)
Theorem C56_hypervisor_refuted : ~ forall msr, msr < 2 ^ 64 -> field 64 msr 0 19 <> 0xACEFF ->
  exists s, decode10 true [JInsn (load10 msr [xl_of false 1 2 (walk64k 0x70000 0x50123000)] 0x10123404 0x50123000)]
            = HOk s.
Proof. exact hypervisor_aborts. Qed.
Print Assumptions C56_hypervisor_refuted.

(** Without a callback only one data address is skipped, and the second is
    read as an instruction. *)
Theorem C56_modes_refuted : ~ forall d1 d2 s s', d1 < 2 ^ 64 -> d2 < 2 ^ 64 ->
  field 64 d1 0 19 <> 0xACEFF -> field 64 d2 0 19 <> 0xACEFF ->
  decode10 true [JInsn (pair10 d1 d2)] = HOk s -> decode10 false [JInsn (pair10 d1 d2)] = HOk s' ->
  h_log s = h_log s'.
Proof. exact modes_differ. Qed.
Print Assumptions C56_modes_refuted.
