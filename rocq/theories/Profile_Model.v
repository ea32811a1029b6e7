(** Model of qtrace-bbv over trace files: the reader feeds the profile. *)
Require Import NArith List Bool.
Require Import Verif.Codec_Types Verif.Reader_Model Verif.Matrix_Model Verif.Pam_Model Verif.Bbv_Model.
Import ListNotations.
Local Open Scope N_scope.

(* qtrace-bbv/qtrace-bbv.c:209-215: what the loop of parse_qtrace is given.
   [None]: the file is not opened, or the reader dies. *)
Definition profiled (slack file : list N) : option (list rec) :=
  match qtreader_initialize file with
  | ROk _ =>
      match read_trace false false slack file with
      | (l, EndFalse) => Some (List.map (fun o => (q_insn_addr (o_q o), q_branch (o_q o))) l)
      | _ => None
      end
  | _ => None
  end.
(* qtrace-bbv/qtrace-bbv.c:164-178 for a file: the matrix that is clustered *)
Definition file_vectors (junk : nat -> N) (walk : list obj -> list obj) (rows0 cols0 period : N)
    (coin : N -> N -> bool) (dims : N) (slack file : list N) : option (mres matrix) :=
  option_map (vectors junk walk rows0 cols0 period coin dims) (profiled slack file).
(* qtrace-bbv/qtrace-bbv.c:299-306: the tool *)
Definition qtrace_bbv (junk : nat -> N) (walk : list obj -> list obj) (rows0 cols0 period : N)
    (coin : N -> N -> bool) (dims my_k : N) (fuel : nat) (slack file : list N)
    : option (pres (list (N * list (N * N * N)))) :=
  option_map (tool junk walk rows0 cols0 period coin dims my_k fuel) (profiled slack file).
