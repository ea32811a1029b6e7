(** Model of qtdis -v: the annotations behind the instructions. *)
Require Import NArith List Bool.
Require Import Verif.Word Verif.Codec_Types Verif.Reader_Model Verif.Qtdis_Model.
Import ListNotations.
Local Open Scope N_scope.

(** What is printed behind an instruction: data address, DATA RPN, DATA RADIX,
    DATA PAGE SIZE, INSN RPN, INSN RADIX, INSN PAGE SIZE, NODE, TERM NODE with
    TERM CODE *)
Inductive note :=
| NData (a : N) | NDataRpn (n : N) | NDataRadix (w : radix) | NDataSize (s : N)
| NInsnRpn (n : N) | NInsnRadix (w : radix) | NInsnSize (s : N) | NNode (n : N) | NTerm (node code : N).
Definition note_if (c : bool) (n : note) : list note := if c then [n] else [].

(** state->data_rpn, as far as the record has kept it: the reader shifts it to
    the left by the page size (qtreader.c:905-921) *)
Definition data_rpn (q : qrec) : N := N.shiftr (q_data_ra q) (if q_data_ps_valid q then q_data_ps q else 16).

(* qtdis.c:381-386 *)
Definition mark (s : rstate) (r : rrec) : bool :=
  let q := o_q r in let n := r_nxt s in
  q_data_addr_valid q || q_data_ra_valid q || x_rpn_v n || o_node_valid r || q_branch q || q_data_ps_valid q || x_rpn_v n || x_ps_v n.
(* qtdis.c:388-425 *)
Definition notes (s : rstate) (r : rrec) : list note :=
  let q := o_q r in let n := r_nxt s in let w := x_radix (r_cur s) in
  note_if (q_data_addr_valid q) (NData (q_data_addr q))
  ++ note_if (q_data_ra_valid q) (NDataRpn (data_rpn q))
  ++ note_if (negb (rx_nr_ptes (q_radix_data q) =? 0)) (NDataRadix (q_radix_data q))
  ++ note_if (q_data_ps_valid q) (NDataSize (q_data_ps q))
  ++ note_if (x_rpn_v n) (NInsnRpn (x_rpn n))
  ++ note_if (x_rpn_v n && negb (rx_nr_ptes w =? 0)) (NInsnRadix w)
  ++ note_if (x_ps_v n) (NInsnSize (x_ps n))
  ++ note_if (o_node_valid r) (NNode (o_node r))
  ++ note_if (q_branch q) (NTerm (o_term_node r) (o_term_code r)).

(** A line: address, words, whether there is a #, and the annotations *)
Definition vline : Type := N * list N * bool * list note.
Definition print_verbose (s : rstate) (r : rrec) (ea : N) : vline :=
  (ea, q_insn (o_q r) :: (if r_prefixed s then [r_suffix s] else []), mark s r, notes s r).

(* qtdis.c:432-467 with -v and no other option *)
Fixpoint verbose_loop (fuel : nat) (slack : list N) (s : rstate) (b : list N) (ea : N) : list vline * qend :=
  match fuel with
  | O => ([], QFault FFuel)
  | S fuel' =>
      match qtreader_next_record slack s b with
      | RErr => ([], QDone)
      | RFault f => ([], QFault f)
      | ROk ((r, s1), b1) =>
          if negb (r_prefixed s1) then
            let (l', e) := verbose_loop fuel' slack s1 b1 (r_next_addr s1) in (print_verbose s1 r ea :: l', e)
          else
            match qtreader_next_record slack s1 b1 with
            | RFault f => ([], QFault f)
            | RErr => ([print_verbose s1 r ea], QLost)
            | ROk ((r2, s2), b2) =>
                let (l', e) := verbose_loop fuel' slack s2 b2 (r_next_addr s2) in (print_verbose s1 r ea :: l', e)
            end
      end
  end.
Definition read_verbose (slack b : list N) : list vline * qend :=
  match qtreader_initialize b with
  | RErr => ([], QExit)
  | RFault f => ([], QFault f)
  | ROk (s, b') => verbose_loop (S (length b')) slack (set_info false false s) b' (r_next_addr s)
  end.
