(** C48: traces built from annotated code (qtbuild). *)
Require Import NArith List Bool Sorted.
Require Import Verif.Codec_Types Verif.Branch_Spec Verif.Writer_Model Verif.Reader_Model Verif.Codec_Spec
  Verif.Build_Model Verif.Build_Spec Verif.Build_Proofs Verif.Build_Proofs2 Verif.Build_Proofs3.
Import ListNotations.
Local Open Scope N_scope.

(** Whatever the uninitialised registers contain: if a trace comes out, it has
    one record per word, at the address the annotation before it gives, with
    the data address of its own annotation, and its branch goes to the next
    record. *)
Theorem C48_records : forall g text im rest a lm rs,
  (forall r, g r < 2 ^ 64) -> Forall (fun w => w < 2 ^ 32) text -> a < 2 ^ 64 -> a mod 4 = 0 ->
  starts_at im rest a -> ordered rest -> sized_im rest -> relative_only rest 0 text ->
  build g text im lm = BOk rs -> traced rest lm 0 a text rs.
Proof. exact build_records. Qed.
Print Assumptions C48_records.

(** A trace comes out of every sensibly annotated program. *)
Theorem C48_accepts : forall g text im rest a lm,
  (forall r, g r < 2 ^ 64) -> Forall (fun w => w < 2 ^ 32) text -> a < 2 ^ 64 -> a mod 4 = 0 ->
  starts_at im rest a -> ordered rest -> sized_im rest -> relative_only rest 0 text ->
  buildable rest lm 0 a text ->
  exists rs, build g text im lm = BOk rs.
Proof. exact build_accepts. Qed.
Print Assumptions C48_accepts.

(** And the file written has these instructions and addresses in it. *)
Theorem C48_file : forall g text im rest a lm rs slack, (forall r, g r < 2 ^ 64) ->
  Forall (fun w => w < 2 ^ 32 /\ w <> 0) text -> a < 2 ^ 64 -> a mod 4 = 0 ->
  starts_at im rest a -> ordered rest -> sized_im rest -> relative_only rest 0 text ->
  Forall (fun m => lm_addr m < 2 ^ 64) lm -> (4 <= length slack)%nat ->
  build g text im lm = BOk rs ->
  exists bytes,
    write_trace 0 rs = inr bytes /\
    length (fst (read_trace false false slack bytes)) = length text /\
    map (fun r => (q_insn (o_q r), q_insn_addr (o_q r))) (fst (read_trace false false slack bytes))
      = map (fun q => (q_insn q, q_insn_addr q)) rs /\
    map (fun r => optb (q_data_addr_valid (o_q r)) (q_data_addr (o_q r))) (fst (read_trace false false slack bytes))
      = map (fun q => optb (q_data_addr_valid q) (q_data_addr q)) rs.
Proof. exact build_file. Qed.
Print Assumptions C48_file.

(** li r3,5; beq; ld r3,0(r4); blr; nop with the branch and the return taken *)
Definition ex_text := [0x38600005; 0x41820008; 0xE8640000; 0x4E800020; 0x60000000].
Definition ex_im := [mk_im 0 0 0x10000000; mk_im 8 0 0x10000100; mk_im 16 0 0x20000000].
Definition ex_lm := [mk_lm 12 0xdeadbe00].
Definition shown (b : bres) :=
  match b with
  | BOk rs => Some (map (fun r => (q_insn r, q_insn_addr r, optb (q_data_addr_valid r) (q_data_addr r))) rs)
  | _ => None
  end.
(** The displacement of beq becomes 0xfc: it is at 0x10000004. *)
Example C48_ex : shown (build (fun _ => 0) ex_text ex_im ex_lm) =
  Some [(0x38600005, 0x10000000, None); (0x418200fc, 0x10000004, None);
        (0xE8640000, 0x10000100, Some 0xdeadbe00); (0x4E800020, 0x10000104, None); (0x60000000, 0x20000000, None)].
Proof. vm_compute. reflexivity. Qed.
Example C48_ex_ok : starts_at ex_im (tl ex_im) 0x10000000 /\ ordered (tl ex_im) /\ sized_im (tl ex_im) /\
  relative_only (tl ex_im) 0 ex_text.
Proof.
  split; [left; reflexivity|]. split; [split; repeat constructor|]. split; [repeat constructor|].
  repeat split.
Qed.
Example C48_ex_rebuildable : buildable (tl ex_im) ex_lm 0 0x10000000 ex_text.
Proof.
  unfold ex_text. cbn [buildable].
  replace (accesses 0x38600005) with false by (vm_compute; reflexivity).
  replace (accesses 0x41820008) with false by (vm_compute; reflexivity).
  replace (accesses 0xE8640000) with true by (vm_compute; reflexivity).
  replace (accesses 0x4E800020) with false by (vm_compute; reflexivity).
  replace (accesses 0x60000000) with false by (vm_compute; reflexivity).
  replace (successor_addr (tl ex_im) 0x38600005 (0 + 4) 0x10000000) with 0x10000004 by (vm_compute; reflexivity).
  split; [vm_compute; reflexivity|]. split; [exact I|].
  split; [vm_compute; reflexivity|].
  split.
  { split; [left; reflexivity|]. split; [|discriminate]. intros _. exists 0x418200fc. vm_compute. repeat split. }
  split; [vm_compute; reflexivity|]. split; [exact I|]. split; [reflexivity|].
  split; [vm_compute; reflexivity|].
  split.
  { split; [left; reflexivity|]. split; [|discriminate]. intros [H|H]; discriminate H. }
  split; [vm_compute; reflexivity|]. split; exact I.
Qed.

(** [branch_taken] behind an absolute branch: ba 0x1000 at 0x2000 is said to
    go to 0x3000, and is changed to do so. *)
Theorem C48_absolute_refuted : exists text im lm rs,
  build (fun _ => 0) text im lm = BOk rs /\
  (exists w, text = [w; 0x60000000] /\ isa_branch_target w 0x2000 = Some 0x1000) /\
  im = [mk_im 0 0 0x2000; mk_im 4 2 0] /\
  map q_insn_addr rs = [0x2000; 0x3000] /\ map q_insn rs <> text.
Proof.
  eexists [0x48001002; 0x60000000], [mk_im 0 0 0x2000; mk_im 4 2 0], [], _. split; [vm_compute; reflexivity|].
  split; [exists 0x48001002; split; vm_compute; reflexivity|]. repeat split. vm_compute. discriminate.
Qed.
Print Assumptions C48_absolute_refuted.

(** A second entry at the same position is never passed, so all entries behind
    it are ignored: the second return goes to the next word. *)
Theorem C48_shadowed_refuted : exists text im rs,
  build (fun _ => 0) text im [] = BOk rs /\
  entry_at im 16 = Some (mk_im 16 0 0x40000000) /\
  map q_insn_addr rs = [0x10000000; 0x10000004; 0x20000000; 0x20000004; 0x20000008].
Proof.
  eexists [0x60000000; 0x4E800020; 0x60000000; 0x4E800020; 0x60000000],
    [mk_im 0 0 0x10000000; mk_im 8 0 0x20000000; mk_im 8 0 0x30000000; mk_im 16 0 0x40000000], _.
  split; [vm_compute; reflexivity|]. repeat split.
Qed.
Print Assumptions C48_shadowed_refuted.

(** With fewer annotations than accesses the map is read behind its end,
    instead of giving the message meant for it. *)
Theorem C48_exhausted_refuted : exists text im, build (fun _ => 0) text im [] = BOob.
Proof. exists ex_text, ex_im. vm_compute. reflexivity. Qed.
Print Assumptions C48_exhausted_refuted.
