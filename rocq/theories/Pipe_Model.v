(** qtdis and the statistics script in a pipe. *)
Require Import NArith List Bool.
Require Import Verif.Args_Model Verif.Script_Model Verif.Tools_Model.
Import ListNotations.
Local Open Scope N_scope.

(* qtdis/qtdis.c:196-216, 389-430: a line with the symbol of its address and the
   disassembly of its words.  The symbol table and the disassembler of binutils
   are arbitrary functions. *)
Definition line_of (sym : N -> option (word * N)) (dis : N -> list N -> word) (l : N * list N) : listed :=
  mk_listed (fst l) (sym (fst l)) (dis (fst l) (snd l)).
(* tools/qtrace_statistics.py reading what qtdis prints: the state of the script at the
   end.  [None]: qtdis fails or the script raises an exception. *)
Definition piped (sym : N -> option (word * N)) (dis : N -> list N -> word) (slack file : list N) : option pst :=
  match qtdis_lines slack file with
  | Some ls => script pst0 (List.map (fun l => listing (line_of sym dis l)) ls)
  | None => None
  end.
