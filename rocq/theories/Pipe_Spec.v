(** What the script should say of a trace. *)
Require Import NArith List Bool.
Require Import Verif.Args_Model Verif.Script_Model Verif.Script_Spec.
Require Verif.Stats_Model.
Import ListNotations.
Local Open Scope N_scope.

(** Symbols without white space; a disassembly that is one line, starting with
    something printed other than an angle bracket. *)
Definition plain_names (sym : N -> option (word * N)) : Prop :=
  forall a n off, sym a = Some (n, off) -> Forall printable n /\ off < 2 ^ 64.
Definition plain_texts (dis : N -> list N -> word) : Prop :=
  forall a ws, Forall (fun c => c <> 10) (dis a ws) /\ printable (hd 0 (dis a ws)) /\ hd 0 (dis a ws) <> 60.

(** The numbers of a trace with instructions at these addresses *)
Definition in_kernel (a : N) : bool := (12 * 2 ^ 60 <=? a) && (a <? 13 * 2 ^ 60).
Definition in_opal (a : N) : bool := (0x30000000 <=? a) && (a <? 0x31000000).
Definition in_user (a : N) : bool := negb (in_kernel a) && negb (in_opal a).
Definition entry (k a : N) : bool := (a =? k) || (a =? 12 * 2 ^ 60 + 0x4000 + k).
Definition numbers (addrs : list N) (s : pst) : Prop :=
  i_system s = count in_kernel addrs /\ i_opal s = count in_opal addrs /\ i_user s = count in_user addrs
  /\ forall k, In k exception_lookup -> lookup N.eqb k (i_exc s) = count (entry k) addrs.

(** The counters of qtdis -s are those of the script, modulo their size. *)
Definition same (t : Stats_Model.stt) (s : pst) : Prop :=
  Stats_Model.t_system t = i_system s mod 2 ^ 64
  /\ Stats_Model.t_opal t = i_opal s mod 2 ^ 64
  /\ Stats_Model.t_user t = i_user s mod 2 ^ 64
  /\ forall k a, nth_error Stats_Model.exceptions k = Some a ->
       nth_error (Stats_Model.t_exc t) k = Some (lookup N.eqb a (i_exc s) mod 2 ^ 64).
