(** C69, C70: how a copy can end; the numbers in the register log. *)
Require Import NArith List Bool Lia.
Require Import Verif.Word Verif.Codec_Types Verif.Writer_Model Verif.Reader_Model Verif.Copy_Model Verif.Regs_Model Verif.Regs_Spec Verif.Vtext_Spec.
Require Verif.Strict_Proofs.
Import ListNotations.
Local Open Scope N_scope.

(** Any file: the copy holds what the writer makes of the records that the
    reader sees, and there is none if the header is not understood. *)
Theorem C69_ends : forall slack b l e, read_trace false false slack b = (l, e) ->
  match copy slack b with
  | CDone out => (exists s b', qtreader_initialize b = ROk (s, b')) /\ e = EndFalse /\ write_trace 0 (map o_q l) = inr out
  | CRefused => qtreader_initialize b = RErr
  | CFailed => False
  | CAbort w => exists n, write_trace 0 (map o_q (firstn n l)) = inl w
  | CFault f => e = EndFault f
  end.
Proof. exact Strict_Proofs.ends. Qed.
Print Assumptions C69_ends.
Example C69_ends_ex : copy [0; 0; 0; 0] [0; 0] = CRefused.
Proof. vm_compute. reflexivity. Qed.

(** The numbers of registers are decimal with two digits, values hexadecimal
    with the digits of their width. *)
Theorem C70_numbers :
  (forall i, (i < 100)%nat -> exists d, length d = 2%nat /\ decimal d = N.of_nat i /\
     name (GPR i) = [71; 80; 82] ++ d /\ name (VR i) = [86; 82] ++ d ++ [32] /\ name (VSR i) = [86; 83; 82] ++ d) /\
  (forall x, proper x -> exists d, render x = [9] ++ name (l_reg x) ++ [32; 48; 120] ++ d ++ [10] /\
     hexadecimal d = l_val x /\ length d = match l_width x with W32 => 8 | W64 => 16 | W128 => 32 end%nat).
Proof. exact Strict_Proofs.log_numbers. Qed.
Print Assumptions C70_numbers.
Example C70_numbers_ex : name (VSR 31) = [86; 83; 82; 51; 49] /\ proper (mk_line (GPR 31) W64 0x123).
Proof.
  split; [reflexivity|]. split; [|split; [reflexivity|vm_compute; reflexivity]].
  apply in_or_app. left. apply (in_map GPR), in_seq. lia.
Qed.
