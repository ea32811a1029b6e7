(** C85: what can be read from the output of qtdis -d 1. *)
Require Import NArith List Bool String Ascii.
Require Import Verif.Codec_Types Verif.Writer_Model Verif.Reader_Model Verif.Codec_Spec Verif.Qtdis_Model Verif.Qtdis_Spec.
Require Import Verif.Qtdis_Proofs3 Verif.Verbose_Model Verif.Verbose_Spec Verif.Dump_Model Verif.Dump_Spec Verif.Dump_Proofs Verif.Dump_Proofs2.
Import ListNotations.
Local Open Scope N_scope.
Local Open Scope list_scope.

(** Every file: the lines have the facts that -v shows of the same instruction,
    up to the first page size of 2^64 bytes or more, where qtdis shifts too far. *)
Theorem C85_dump : forall slack file, let x := read_verbose slack file in let t := qtdis_dump slack file in
  dreads (fst t) = flat_map (fun v => dlines (v_ea v) (noted v)) (until (fun v => sized (noted v)) (fst x)) /\
  snd t = if forallb (fun v => sized (noted v)) (fst x) then snd x else QShift.
Proof. exact dump_read. Qed.
Print Assumptions C85_dump.

(** Written traces: no such page sizes, and all lines follow from the records. *)
Theorem C85_written : forall magic rs slack,
  magic < 2 ^ 32 -> frames rs -> closes rs -> complete rs = true -> (4 <= List.length slack)%nat ->
  exists bytes, write_trace magic rs = inr bytes /\ snd (qtdis_dump slack bytes) = QDone /\
    dreads (fst (qtdis_dump slack bytes)) =
    flat_map (fun x => dlines (fst x) (snd x)) (combine (List.map q_insn_addr (firsts rs)) (trace_notes rs)).
Proof. exact written_dump. Qed.
Print Assumptions C85_written.

(** With pages of 4k the loads and stores are shown with the addresses, real
    pages and page sizes of the records... *)
Theorem C85_data : forall magic rs slack,
  magic < 2 ^ 32 -> frames rs -> closes rs -> complete rs = true -> (4 <= List.length slack)%nat -> Forall small rs ->
  exists bytes, write_trace magic rs = inr bytes /\ filter is_data (dreads (fst (qtdis_dump slack bytes))) = flat_map own_data (firsts rs).
Proof. exact small_dump. Qed.
Print Assumptions C85_data.

(** ... but with others the real pages are wrong. *)
Theorem C85_large_refuted : ~ forall rs bytes d ra, frames rs -> closes rs -> write_trace 0 rs = inr bytes ->
  In d (dreads (fst (qtdis_dump [0; 0; 0; 0] bytes))) -> is_data d = true -> snd (fst d) = Some ra ->
  exists r, In r rs /\ ra = q_data_ra r / 4096 * 4096.
Proof. exact large_wrong. Qed.
Print Assumptions C85_large_refuted.

Fixpoint str (l : list N) : string :=
  match l with [] => EmptyString | c :: l' => String (ascii_of_N c) (str l') end.
Example C85_ex_large : str (fst (qtdis_dump [0; 0; 0; 0] large_bytes)) =
"IFTCH EA:0x0000000000010000
LDST EA:0x0000000000500018 RA:0x0000000000123000 PAGE_SIZE:0x10000
IFTCH EA:0x0000000000010004
"%string /\ q_data_ra large_rec = 0x1230018.
Proof. split; vm_compute; reflexivity. Qed.
Definition small_rec : qrec :=
  mk_qrec 0xe8610008 0x10000 false 0 false 0 true 0x500018 true 0x1230018 true 12 false false false 0 false 0 zero_radix zero_radix.
Example C85_ex_small : small small_rec /\ small large_next /\
  dreads (fst (qtdis_dump [0; 0; 0; 0] (ex_bytes [small_rec; large_next]))) =
  [(false, Some 0x10000, None, None); (true, Some 0x500018, Some 0x1230000, Some 0x1000); (false, Some 0x10004, None, None)].
Proof. split; [|split]; [split; [reflexivity|]; intros _; repeat split; reflexivity|split; [reflexivity|discriminate]|vm_compute; reflexivity]. Qed.
Example C85_ex_jump : str (fst (qtdis_dump [0; 0; 0; 0] (ex_bytes ex_no_prefix))) =
"IFTCH EA:0x0000000000010000
IFTCH EA:0x0000000000010004 RA:0x0000000000777000 PAGE_SIZE:0x10000
IFTCH EA:0x0000000000030000
LDST EA:0x0000000000500018
"%string.
Proof. vm_compute. reflexivity. Qed.
(** A page size of 2^100 bytes *)
Example C85_ex_shift : exists file, snd (qtdis_dump [0; 0; 0; 0] file) = QShift /\ snd (read_verbose [0; 0; 0; 0] file) = QDone.
Proof.
  set (r := mk_qrec 0xe8610008 0x10000 false 0 false 0 true 0x500018 false 0 true 100 false false false 0 false 0 zero_radix zero_radix).
  exists (ex_bytes [r; large_next]). split; vm_compute; reflexivity.
Qed.
