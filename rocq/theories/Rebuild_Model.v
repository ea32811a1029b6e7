(** Model of `qtdis -b` (qtdis/qtdis.c:341-365): the annotations it prints, as
    the maps the macros of qtbuild/qtb.h:138-176 assemble them to.  The printed
    instruction goes through a disassembler and an assembler, which are the
    environment.  Prefixed instructions, where one line stands for two words,
    are not modelled. *)
Require Import NArith List Bool.
Require Import Verif.Word Verif.Build_Model.
Import ListNotations.
Local Open Scope N_scope.

(** What qtdis uses of a record: word, address, data address. *)
Record drec := mk_drec { d_insn : N; d_ea : N; d_data : option N }.

(* qtdis.c:351-354: branch_to_abs in front of an instruction that does not
   follow the one before; [pos] is the position of the instruction *)
Fixpoint abs_entries (pos last_ea : N) (rs : list drec) : list insn_map :=
  match rs with
  | [] => []
  | r :: rs =>
      (if add64 last_ea 4 =? d_ea r then [] else [mk_im pos BRANCH_TYPE_ABS (d_ea r)])
      ++ abs_entries (pos + 4) (d_ea r) rs
  end.
(* qtdis.c:347-350: start_trace *)
Definition insnmap_of (rs : list drec) : list insn_map :=
  match rs with
  | [] => []
  | r :: rs => mk_im 0 BRANCH_TYPE_ABS (d_ea r) :: abs_entries 4 (d_ea r) rs
  end.
(* qtdis.c:363-364: ldst behind the instruction *)
Fixpoint ldst_entries (pos : N) (rs : list drec) : list ldst_map :=
  match rs with
  | [] => []
  | r :: rs =>
      (match d_data r with Some d => [mk_lm (pos + 4) d] | None => [] end) ++ ldst_entries (pos + 4) rs
  end.
Definition ldstmap_of (rs : list drec) : list ldst_map := ldst_entries 0 rs.
