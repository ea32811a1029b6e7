(** Model of the text of qtdis -d 1. *)
Require Import NArith List Bool String.
Require Import Verif.Word Verif.Codec_Types Verif.Reader_Model Verif.Qtdis_Model Verif.Verbose_Model Verif.Vtext_Model.
Require Verif.Regs_Model Verif.Script_Model.
Import ListNotations.
Local Open Scope N_scope.
Local Open Scope list_scope.

Local Notation "' x" := (chars x%string) (at level 0, x at level 0).
Local Notation hex := Regs_Model.hex.

(** (unsigned long)rpn << 12 *)
Definition shifted (rpn : N) : N := u64 (N.shiftl rpn 12).
(* qtdis.c:320, 328: "RA:0x%016lx" *)
Definition print_ra (v : bool) (rpn : N) : list N := if v then '" RA:0x" ++ hex 16 (shifted rpn) else [].
(* qtdis.c:322, 330: "PAGE_SIZE:0x%lx"; nothing if the shift is undefined *)
Definition print_size (v : bool) (shift : N) : option (list N) :=
  if v then (if shift <? 64 then Some ('" PAGE_SIZE:0x" ++ Script_Model.hexs 16 (N.shiftl 1 shift)) else None) else Some [].

(* qtdis.c:317-332; [data_rpn] as in [Verbose_Model].  What is in stdout's
   buffer at an undefined shift counts as not printed for this record. *)
Definition dump_record (s : rstate) (r : rrec) (ea : N) : option (list N) :=
  let q := o_q r in let n := r_nxt s in
  match print_size (x_ps_v n) (x_ps n) with
  | None => None
  | Some isize =>
      let fetch := '"IFTCH EA:0x" ++ hex 16 ea ++ print_ra (x_rpn_v n) (x_rpn n) ++ isize ++ [10] in
      if q_data_addr_valid q then
        match print_size (q_data_ps_valid q) (q_data_ps q) with
        | None => None
        | Some dsize => Some (fetch ++ '"LDST EA:0x" ++ hex 16 (q_data_addr q) ++ print_ra (q_data_ra_valid q) (data_rpn q) ++ dsize ++ [10])
        end
      else Some fetch
  end.

(* qtdis.c:452-464 with -d 1 *)
Fixpoint dump_loop (fuel : nat) (slack : list N) (s : rstate) (b : list N) (ea : N) : list N * qend :=
  match fuel with
  | O => ([], QFault FFuel)
  | S fuel' =>
      match qtreader_next_record slack s b with
      | RErr => ([], QDone)
      | RFault f => ([], QFault f)
      | ROk ((r, s1), b1) =>
          if negb (r_prefixed s1) then
            match dump_record s1 r ea with
            | None => ([], QShift)
            | Some t => let (t', e) := dump_loop fuel' slack s1 b1 (r_next_addr s1) in (t ++ t', e)
            end
          else
            match qtreader_next_record slack s1 b1 with
            | RFault f => ([], QFault f)
            | RErr => match dump_record s1 r ea with None => ([], QShift) | Some t => (t, QLost) end
            | ROk ((r2, s2), b2) =>
                match dump_record s1 r ea with
                | None => ([], QShift)
                | Some t => let (t', e) := dump_loop fuel' slack s2 b2 (r_next_addr s2) in (t ++ t', e)
                end
            end
      end
  end.
(* qtdis.c:432-467 *)
Definition qtdis_dump (slack b : list N) : list N * qend :=
  match qtreader_initialize b with
  | RErr => ([], QExit)
  | RFault f => ([], QFault f)
  | ROk (s, b') => dump_loop (S (List.length b')) slack (set_info false false s) b' (r_next_addr s)
  end.
