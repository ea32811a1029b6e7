(** Model of qtdis/qtdis.c: read_qt and print_qt_record without -b (see
    Rebuild_Model) and without -v. *)
Require Import NArith List Bool.
Require Import Verif.Word Verif.Codec_Types Verif.Reader_Model.
Import ListNotations.
Local Open Scope N_scope.

(** Options: -d, -s or -i, -c *)
Record options := mk_options { dump_nr : N; stats : bool; blocks : bool }.

(** What is printed or logged: a line with address and instruction words; the
    lines of -d 1, with real address and page size; ppcstats_log_inst;
    bb_ea_log. *)
Inductive out :=
| Line (ea : N) (words : list N)
| Fetch (ea : N) (ra size : option N)
| LdSt (ea : N) (size : option N)
| Stat (ea w : N)
| Block (ea : N).

(** Ends: with the trace; exit(1); a fault of the reader; a shift by 64 or more;
    or the loop goes on although the reader failed, which is not modelled. *)
Inductive qend := QDone | QExit | QFault (f : rfault) | QShift | QLost.

(** 1UL << shift *)
Definition page_size (v : bool) (shift : N) : option (option N) :=
  if v then (if shift <? 64 then Some (Some (N.shiftl 1 shift)) else None) else Some None.

(* qtdis.c:303-386, 228-285.  The real address of the LDST line is left out. *)
Definition print_qt_record (o : options) (s : rstate) (r : rrec) (ea : N) : list out + qend :=
  let q := o_q r in
  let buf := q_insn q :: (if r_prefixed s then [r_suffix s] else []) in
  if dump_nr o =? 1 then
    let n := r_nxt s in
    match page_size (x_ps_v n) (x_ps n) with
    | None => inr QShift
    | Some isize =>
        let f := Fetch ea (if x_rpn_v n then Some (u64 (N.shiftl (x_rpn n) 12)) else None) isize in
        if q_data_addr_valid q then
          match page_size (q_data_ps_valid q) (q_data_ps q) with
          | None => inr QShift
          | Some dsize => inl [f; LdSt (q_data_addr q) dsize]
          end
        else inl [f]
    end
  else if negb (dump_nr o =? 0) then inr QExit
  else
    inl ((if stats o || blocks o then [] else [Line ea buf])
         ++ (if stats o then [Stat ea (q_insn q)] else [])
         ++ (if blocks o then [Block ea] else [])).

(* qtdis.c:452-464: a prefixed instruction is two records.  The result of the
   second read is not looked at. *)
Fixpoint read_qt_loop (fuel : nat) (o : options) (slack : list N) (s : rstate) (b : list N) (ea : N)
  : list out * qend :=
  match fuel with
  | O => ([], QFault FFuel)
  | S fuel' =>
      match qtreader_next_record slack s b with
      | RErr => ([], QDone)
      | RFault f => ([], QFault f)
      | ROk ((r, s1), b1) =>
          if negb (r_prefixed s1) then
            match print_qt_record o s1 r ea with
            | inr e => ([], e)
            | inl l =>
                let (l', e) := read_qt_loop fuel' o slack s1 b1 (r_next_addr s1) in (l ++ l', e)
            end
          else
            match qtreader_next_record slack s1 b1 with
            | RFault f => ([], QFault f)
            | RErr => match print_qt_record o s1 r ea with inr e => ([], e) | inl l => (l, QLost) end
            | ROk ((r2, s2), b2) =>
                match print_qt_record o s1 r ea with
                | inr e => ([], e)
                | inl l =>
                    let (l', e) := read_qt_loop fuel' o slack s2 b2 (r_next_addr s2) in (l ++ l', e)
                end
            end
      end
  end.
(* qtdis.c:432-467 *)
Definition read_qt (o : options) (slack b : list N) : list out * qend :=
  match qtreader_initialize b with
  | RErr => ([], QExit)
  | RFault f => ([], QFault f)
  | ROk (s, b') => read_qt_loop (S (length b')) o slack (set_info false false s) b' (r_next_addr s)
  end.
