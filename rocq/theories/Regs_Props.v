(** C70: the register dump of ptracer -a -r. *)
Require Import Arith NArith List Bool.
Require Import Verif.Regs_Model Verif.Regs_Spec Verif.Regs_Proofs Verif.Regs_Proofs2.
Import ListNotations.
Local Open Scope N_scope.

(** The log is the story of the recorded instructions: before each the
    registers whose value changed, each once, in a fixed order. *)
Theorem C70_changes : forall le skip left l,
  Forall answers (List.map snd (recorded skip left l)) ->
  log le true skip left zero_state (calls l) = (story le (fun _ => 0) (recorded skip left l), false).
Proof. exact log_is. Qed.
Print Assumptions C70_changes.

(** Somebody who reads the log down to an instruction knows every register of
    that instruction. *)
Theorem C70_replay : forall le skip left l its,
  Forall answers (List.map snd (recorded skip left l)) ->
  log le true skip left zero_state (calls l) = (its, false) ->
  forall pre pc w post, its = pre ++ IInsn pc w :: post ->
  exists a, nth_error (recorded skip left l) (length (insns pre)) = Some (pc, w, a)
            /\ forall r, In r all_regs -> known (fun _ => 0) pre r = value le a r.
Proof. exact replay. Qed.
Print Assumptions C70_replay.

(** The instructions of the log are those recorded, with -r or without. *)
Theorem C70_instructions : forall le dump skip left l,
  Forall answers (List.map snd (recorded skip left l)) ->
  insns (fst (log le dump skip left zero_state (calls l))) = List.map fst (recorded skip left l)
  /\ snd (log le dump skip left zero_state (calls l)) = false.
Proof. exact instructions. Qed.
Print Assumptions C70_instructions.

(** A printed line says which register and which value. *)
Theorem C70_text : forall x y, proper x -> proper y -> render x = render y -> x = y.
Proof. exact render_inj. Qed.
Print Assumptions C70_text.
Theorem C70_lines : forall le skip left l x,
  Forall answers (List.map snd (recorded skip left l)) ->
  In (IReg x) (fst (log le true skip left zero_state (calls l))) -> proper x.
Proof. exact lines_proper. Qed.
Print Assumptions C70_lines.

(** On a big endian host the vector-scalar registers are the architecture's;
    on a little endian host the halves are exchanged. *)
Theorem C70_big_endian : forall a i, value false a (VSR i) = vsr a i.
Proof. exact big_endian_vsr. Qed.
Print Assumptions C70_big_endian.
Theorem C70_halves_refuted : exists a, answers a /\ value true a (VSR 0) <> vsr a 0.
Proof. exists one. split; [exact one_answers|intros H; discriminate H]. Qed.
Print Assumptions C70_halves_refuted.

(** Example: 1.0 in floating point register 0, then GPR 3 and CR change. *)
Definition ex_a : answer :=
  mk_answer [0; 0; 0; 0xff] 0 0 0 0x123 (repeat 0 33) 0 (0x3ff0000000000000 :: repeat 0 32) (repeat 0 32).
Example C70_ex :
  log true true 1 (Some 2%nat) zero_state
    (calls [(0x0ffc, 0x60000000, one); (0x1000, 0xfc000090, one); (0x1004, 0x7c632850, ex_a); (0x1008, 0x60000000, one)])
  = ([IReg (mk_line (VSR 0) W128 0x3ff0000000000000); IInsn 0x1000 0xfc000090;
      IReg (mk_line (GPR 3) W64 0xff); IReg (mk_line CR W32 0x123); IInsn 0x1004 0x7c632850], false).
Proof. vm_compute. reflexivity. Qed.
(** "\tGPR03 0x00000000000000ff\n" *)
Example C70_ex_text :
  render (mk_line (GPR 3) W64 0xff)
  = [9; 71; 80; 82; 48; 51; 32; 48; 120; 48; 48; 48; 48; 48; 48; 48; 48; 48; 48; 48; 48; 48; 48; 102; 102; 10].
Proof. vm_compute. reflexivity. Qed.
