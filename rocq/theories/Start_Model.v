(** Model of two helpers of ptracer: setrlimit_open_files (ptracer/main.c
    48-71) and the name of the process given to criu by do_checkpoint
    (ptracer/main.c 84-99). *)
Require Import Arith ZArith NArith List Bool.
Require Import Verif.Args_Model.
Import ListNotations.
Local Open Scope N_scope.

(** The limit of open files: soft and hard limit, and fs.nr_open. *)
Record limits := mk_limits { cur : N; max : N; nr_open : N }.
(** What Linux does with a new soft limit and the old hard limit (do_prlimit):
    the soft limit must not exceed the hard one, and the hard limit must not
    exceed fs.nr_open, even if it stays the same. *)
Definition setrlimit (s : limits) (new : N) : option limits :=
  if (new <=? max s) && (max s <=? nr_open s) then Some (mk_limits new (max s) (nr_open s)) else None.

Inductive ended A := Done (a : A) | Forever.
Arguments Done {A}. Arguments Forever {A}.
(* ptracer/main.c:61-70, from some value of new on; at 0 new /= 2 changes nothing *)
Fixpoint halve (fuel : nat) (s : limits) (new : N) : ended limits :=
  match setrlimit s new with
  | Some s' => Done s'
  | None =>
      match fuel with
      | O => Forever
      | S f => if new =? 0 then Forever else halve f s (new / 2)
      end
  end.
(* ptracer/main.c:52-71; 16384 is 0 after 15 halvings *)
Definition setrlimit_open_files (s : limits) : ended limits :=
  if 16384 <? cur s then Done s else halve 15 s 16384.

(** %d of a number that is not negative *)
Fixpoint decimal (fuel : nat) (n : N) : word :=
  match fuel with
  | O => []
  | S f => (if n <? 10 then [] else decimal f (n / 10)) ++ [48 + n mod 10]
  end.
(* ptracer/main.c:86-88: room for 6 characters and a zero *)
Definition pidstr (pid : N) : word := firstn 6 (decimal 10 pid).
(** The process criu dumps: the argument of -t, read with atoi. *)
Definition dumped (pid : N) : Z := atoi (pidstr pid).
