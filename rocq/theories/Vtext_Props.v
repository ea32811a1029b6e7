(** C84: the listing of qtdis -v can be read. *)
Require Import NArith List Bool String Ascii.
Require Import Verif.Codec_Types Verif.Writer_Model Verif.Reader_Model Verif.Codec_Spec Verif.Qtdis_Model Verif.Qtdis_Spec.
Require Import Verif.Qtdis_Proofs3 Verif.Verbose_Model Verif.Verbose_Spec Verif.Vtext_Model Verif.Vtext_Spec Verif.Vtext_Proofs2 Verif.Vtext_Proofs3.
Require Verif.Vectors_Proofs.
Import ListNotations.
Local Open Scope N_scope.
Local Open Scope list_scope.

(** For every file, disassembler and symbol table whose texts have no # and no
    end of line: from the listing a user reads every address, with -r every
    word, and every annotation with every entry of the walks. *)
Theorem C84_listing : forall sym dis (le raw : bool) slack file, plain sym dis ->
  readings le raw (qtdis_verbose sym dis le raw slack file) = List.map (line_reading raw) (fst (read_verbose slack file)).
Proof. exact listing_read. Qed.
Print Assumptions C84_listing.

(** ... and every symbol with its offset and every instruction. *)
Theorem C84_names : forall sym dis (le raw : bool) slack file, plain sym dis -> (forall a ws, ~ In 9 (dis a ws)) ->
  List.map (fun t => (symbol t, instruction raw t)) (removelast (split 10 (qtdis_verbose sym dis le raw slack file))) =
  List.map (fun v => (option_map (fun x => (fst x, snd x mod 2 ^ 64)) (sym (v_ea v)), dis (v_ea v) (v_words v))) (fst (read_verbose slack file)).
Proof. exact names_read. Qed.
Print Assumptions C84_names.

(** For every trace that was written: addresses, words, and all annotations
    that are no walks are those of the records. *)
Theorem C84_written : forall sym dis (le raw : bool) magic rs slack, plain sym dis ->
  magic < 2 ^ 32 -> frames rs -> closes rs -> complete rs = true -> (4 <= List.length slack)%nat ->
  exists bytes, write_trace magic rs = inr bytes /\
    let l := readings le raw (qtdis_verbose sym dis le raw slack bytes) in
    List.map (fun x => fst (fst x)) l = List.map q_insn_addr (firsts rs) /\
    (raw = true -> List.map (fun x => hd 0 (snd (fst x))) l = List.map q_insn (firsts rs)) /\
    List.map (fun x => filter nowalk (snd x)) l = List.map (flat_map masked) (trace_notes rs).
Proof. exact written_read. Qed.
Print Assumptions C84_written.

(** The guest address printed in front of a single walk is not that of any
    record. *)
Theorem C84_guest_refuted : ~ forall rs bytes l a, frames rs -> closes rs -> write_trace 0 rs = inr bytes ->
  In (PGuest l a) (flat_map snd (readings true true (qtdis_verbose bare_sym bare_dis true true [0; 0; 0; 0] bytes))) ->
  exists r, In r rs /\ nth (N.to_nat (l - 1)) (rx_guest_real (q_radix_insn r)) 0 = a.
Proof. exact guest_wrong. Qed.
Print Assumptions C84_guest_refuted.

(** A branch and a nop with their walks, on a little endian host with -r and a
    symbol. *)
Fixpoint str (l : list N) : string :=
  match l with [] => EmptyString | c :: l' => String (ascii_of_N c) (str l') end.
Definition ex_sym (a : N) : option (list N * N) := if a <? 0x20000 then Some (chars "main", a - 0x10000) else None.
Definition ex_dis (a : N) (ws : list N) : list N := match ws with [0x60000000] => chars "nop" | _ => chars "b" end.
Example C84_ex_plain : plain ex_sym ex_dis.
Proof.
  split.
  - intros a name off. unfold ex_sym. destruct (a <? 0x20000); [|discriminate]. intros H. injection H as <- _.
    unfold calm. cbn. intuition discriminate.
  - intros a ws. unfold calm. assert (D : ex_dis a ws = chars "nop" \/ ex_dis a ws = chars "b").
    { unfold ex_dis. repeat (match goal with |- context [match ?x with _ => _ end] => destruct x end; auto). }
    destruct D as [-> | ->]; cbn; intuition discriminate.
Qed.
Definition ex_rs : list qrec := [guest_from; guest_to].
Example C84_ex : str (qtdis_verbose ex_sym ex_dis true true [0; 0; 0; 0] (ex_bytes ex_rs)) =
("0000000000010004 <main+0x4> 	f8 0f 00 48 	b	 # INSN RPN 0x00000777 INSN RADIX GUEST L1 0000000000000000 HOST L1 0x0000000000000001 HOST L2 0x0000000000000002 HOST L3 0x0000000000000003 HOST L4 0x0000000000000004  INSN PAGE SIZE 16 NODE 0x00 TERM NODE 0x00 TERM CODE 0x08
0000000000030000 	00 00 00 60 	nop
")%string.
Proof. vm_compute. reflexivity. Qed.
Example C84_ex_read : readings true true (qtdis_verbose ex_sym ex_dis true true [0; 0; 0; 0] (ex_bytes ex_rs)) =
  [(0x10004, [0x48000ff8], [PInsnRpn 0x777; PInsnWalk; PGuest 1 0; PHost 1 1; PHost 2 2; PHost 3 3; PHost 4 4; PInsnSize 16;
     PNode 0; PTerm 0 8]); (0x30000, [0x60000000], [])].
Proof. vm_compute. reflexivity. Qed.
(** A disassembler that prints a # hides the annotations. *)
Example C84_ex_hash : let dis (_ : N) (_ : list N) := chars "li r3,#1 " in
  List.map snd (readings true true (qtdis_verbose bare_sym dis true true [0; 0; 0; 0] (ex_bytes ex_rs))) =
  [[PData 0; PData 0]; [PData 0]].
Proof. vm_compute. reflexivity. Qed.
Example C84_ex_names :
  List.map (fun t => (symbol t, instruction true t)) (removelast (split 10 (qtdis_verbose ex_sym ex_dis true true [0; 0; 0; 0] (ex_bytes ex_rs)))) =
  [(Some (chars "main", 4), chars "b"); (None, chars "nop")].
Proof. vm_compute. reflexivity. Qed.
