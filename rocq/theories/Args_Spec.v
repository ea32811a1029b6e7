(** How command lines are written, and what they mean. *)
Require Import Arith ZArith NArith List Bool.
Require Import Verif.Args_Model.
Import ListNotations.
Local Open Scope N_scope.

(** A word that is no option: empty, not starting with '-', or just '-'. *)
Definition plain (w : word) : Prop := w = [45] \/ hd 0 w <> 45.

(** The conventions for command lines: options and operands, and the words
    that say so.  Letters without argument can be joined; an argument follows
    its letter in the same word or is the next word; "--" ends the options.
    With [stop] so does the first operand, otherwise operands and options can
    be mixed. *)
Inductive line (stop : bool) (o : options) : list opt -> list word -> list word -> Prop :=
| l_end : line stop o [] [] []
| l_dashes ops : line stop o [] ops ([45; 45] :: ops)
| l_stop w ws : stop = true -> plain w -> line stop o [] (w :: ws) (w :: ws)
| l_mixed l w ops ws : stop = false -> plain w -> line stop o l ops ws -> line stop o l (w :: ops) (w :: ws)
| l_flags cs l ops ws : cs <> [] -> Forall (fun c => o c = Some false) cs -> line stop o l ops ws ->
    line stop o (List.map (fun c => Opt c None) cs ++ l) ops ((45 :: cs) :: ws)
| l_joined cs c v l ops ws : Forall (fun c => o c = Some false) cs -> o c = Some true -> v <> [] ->
    line stop o l ops ws ->
    line stop o (List.map (fun c => Opt c None) cs ++ Opt c (Some v) :: l) ops ((45 :: cs ++ c :: v) :: ws)
| l_apart cs c v l ops ws : Forall (fun c => o c = Some false) cs -> o c = Some true ->
    line stop o l ops ws ->
    line stop o (List.map (fun c => Opt c None) cs ++ Opt c (Some v) :: l) ops ((45 :: cs ++ [c]) :: v :: ws).

(** The option was given, and how often. *)
Definition is_flag (c : N) (o : opt) : bool := match o with Opt c' None => c =? c' | _ => false end.
Definition given (c : N) (l : list opt) : bool := existsb (is_flag c) l.
Definition times (c : N) (l : list opt) : nat := length (filter (is_flag c) l).
(** The arguments given with a letter; the last one counts. *)
Definition args_of (c : N) (l : list opt) : list word :=
  flat_map (fun o => match o with Opt c' (Some v) => if c =? c' then [v] else [] | _ => [] end) l.
Definition last_of (c : N) (l : list opt) : option word :=
  match rev (args_of c l) with v :: _ => Some v | [] => None end.
Definition number {A} (f : word -> A) (d : A) (v : option word) : A :=
  match v with Some w => f w | None => d end.

(** ptracer *)
Definition ptracer_means (l : list opt) (ops : list word) : outcome p_plan :=
  let pid := number atoi 0%Z (last_of 112 l) in
  let ascii := match last_of 97 l, last_of 113 l with
               | Some f, _ => Some (File f) | None, Some _ => None | None, None => Some Stdout end in
  let plan t := mk_plan ascii (last_of 113 l) t
                  (number (fun v => ulong_of (strtol v)) (2 ^ 64 - 1) (last_of 110 l))
                  (number (fun v => ulong_of (strtol v)) 0 (last_of 115 l))
                  (given 114 l) (given 120 l) (last_of 99 l) in
  if given 102 l || given 104 l then Usage 1
  else match Z.eqb pid 0, ops with
       | true, [] => Usage 1
       | true, _ => Run (plan (Exec ops))
       | false, [] => Run (plan (Attach pid))
       | false, _ => Usage 1
       end.

(** qtdis *)
Definition nonempty {A} (l : list A) : bool := match l with [] => false | _ => true end.
Definition qtdis_means (bfd : bool) (l : list opt) (ops : list word) : outcome (d_set * word) :=
  if negb bfd && (given 98 l || nonempty (args_of 101 l)) then Usage 1
  else match ops with
       | [f] =>
           if (given 115 l || given 99 l || given 105 l) && (given 118 l || given 114 l) then Error 1
           else Run (mk_d (args_of 101 l) (given 98 l) (number atoi 0%Z (last_of 100 l)) (given 114 l)
                          (given 115 l) (given 105 l) (given 99 l) (times 118 l), f)
       | _ => Usage 1
       end.

(** htmdecoder *)
Definition htm_means (l : list opt) (ops : list word) : outcome h_plan :=
  let count := given 115 l || given 98 l || given 105 l in
  match ops with
  | [] => Usage 1
  | input :: _ =>
      let path := match last_of 111 l with Some f => f | None => input ++ [46; 113; 116] end in
      if nonempty (args_of 111 l) && count then Error 1
      else if 4096 <=? N.of_nat (length path) then Error 1
      else Run (mk_hp (mk_h (given 68 l) (given 68 l || given 100 l) (last_of 111 l)
                            (given 115 l) (given 105 l) (given 98 l))
                      input (if count then None else Some path))
  end.

(** qtrace-bbv *)
Definition bbv_means (dim per : N) (l : list opt) (ops : list word) : outcome (b_set * word) :=
  match ops with
  | [f] => Run (mk_b (number (fun v => strtoul v mod 2 ^ 32) dim (last_of 100 l))
                     (number (fun v => strtoul v mod 2 ^ 32) 0 (last_of 107 l))
                     (number strtoul per (last_of 112 l)) (times 118 l), f)
  | _ => Usage 1
  end.

(** Decimal numbers: digits, the most significant first. *)
Definition value_of (ds : list N) : N := fold_left (fun a d => 10 * a + d) ds 0.
Definition text_of (ds : list N) : word := List.map (fun d => 48 + d) ds.
