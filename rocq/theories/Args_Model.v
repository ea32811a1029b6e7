(** Model of the command lines of ptracer, qtdis, htmdecoder and qtrace-bbv:
    getopt of the C library as they call it, and what they make of it
    (ptracer/main.c 309-389, qtdis/qtdis.c 469-531, htm/htmdecoder.c 220-300,
    qtrace-bbv/qtrace-bbv.c 248-285).  A word is the list of its characters
    without the final zero. *)
Require Import Arith ZArith NArith List Bool.
Import ListNotations.
Local Open Scope N_scope.

Definition word := list N.

(** An option as getopt returns it: letter and optarg, or '?'. *)
Inductive opt := Opt (c : N) (arg : option word) | Bad.

(** The options of a program: [Some true] if the letter is followed by a colon. *)
Definition options := N -> option bool.

(** One word of letters behind a '-': the options in it, and the letter that
    waits for the next word. *)
Fixpoint letters (o : options) (cs : word) : list opt * option N :=
  match cs with
  | [] => ([], None)
  | c :: cs' =>
      match o c with
      | None => let (l, w) := letters o cs' in (Bad :: l, w)
      | Some false => let (l, w) := letters o cs' in (Opt c None :: l, w)
      | Some true => match cs' with
                     | [] => ([], Some c)
                     | _ => ([Opt c (Some cs')], None)
                     end
      end
  end.

(** getopt until it returns -1, and the words from optind on.  [stop]: the
    option string starts with '+'; otherwise GNU getopt moves the operands
    behind the options. *)
Fixpoint getopt (stop : bool) (o : options) (args : list word) : list opt * list word :=
  match args with
  | [] => ([], [])
  | a :: rest =>
      match a with
      | [45; 45] => ([], rest)
      | 45 :: (c :: cs) =>
          let (l, w) := letters o (c :: cs) in
          match w with
          | None => let (l', ops) := getopt stop o rest in (l ++ l', ops)
          | Some c =>
              match rest with
              | [] => (l ++ [Bad], [])
              | v :: rest' => let (l', ops) := getopt stop o rest' in (l ++ Opt c (Some v) :: l', ops)
              end
          end
      | _ => if stop then ([], args)
             else let (l, ops) := getopt stop o rest in (l, a :: ops)
      end
  end.

(** ** Numbers *)
Definition is_space (c : N) : bool := (c =? 32) || ((9 <=? c) && (c <=? 13)).
Definition is_digit (c : N) : bool := (48 <=? c) && (c <=? 57).
Fixpoint skip_space (l : word) : word :=
  match l with c :: l' => if is_space c then skip_space l' else l | [] => [] end.
Fixpoint digits_val (acc : N) (l : word) : N :=
  match l with
  | c :: l' => if is_digit c then digits_val (10 * acc + (c - 48)) l' else acc
  | [] => acc
  end.
Definition sign_of (l : word) : bool * word :=
  match l with 45 :: l' => (true, l') | 43 :: l' => (false, l') | _ => (false, l) end.
(** strtol base 10, saturating *)
Definition strtol (l : word) : Z :=
  let (neg, l') := sign_of (skip_space l) in
  let v := digits_val 0 l' in
  if neg then Z.max (- 2 ^ 63) (- Z.of_N v) else Z.min (2 ^ 63 - 1) (Z.of_N v).
(** strtoul base 10: saturates, a minus sign negates *)
Definition strtoul (l : word) : N :=
  let (neg, l') := sign_of (skip_space l) in
  let v := digits_val 0 l' in
  if 2 ^ 64 - 1 <? v then 2 ^ 64 - 1 else if neg then (2 ^ 64 - v) mod 2 ^ 64 else v.
Definition ulong_of (z : Z) : N := Z.to_N (z mod 2 ^ 64).
(** atoi of the C library: strtol converted to int *)
Definition atoi (l : word) : Z := ((strtol l + 2 ^ 31) mod 2 ^ 32 - 2 ^ 31)%Z.

(** ** ptracer *)
(* ptracer/main.c:319: "+a:q:p:fn:s:rxc:h"; 70-75, 241, 311-312 *)
Definition o_ptracer : options := fun c =>
  if existsb (N.eqb c) [97; 113; 112; 110; 115; 99] then Some true
  else if existsb (N.eqb c) [102; 114; 120; 104] then Some false else None.
Record p_set := mk_p {
  p_ascii : option word; p_qtrace : option word; p_pid : Z; p_left : N; p_skip : N;
  p_dump : bool; p_xlate : bool; p_chk : option word
}.
Definition p_init := mk_p None None 0 (2 ^ 64 - 1) 0 false false None.
(* ptracer/main.c:323-364; None: usage and exit(1) *)
Definition p_opt (s : p_set) (o : opt) : option p_set :=
  let '(mk_p a q p n k r x c) := s in
  match o with
  | Opt 97 (Some v) => Some (mk_p (Some v) q p n k r x c)
  | Opt 113 (Some v) => Some (mk_p a (Some v) p n k r x c)
  | Opt 112 (Some v) => Some (mk_p a q (atoi v) n k r x c)
  | Opt 110 (Some v) => Some (mk_p a q p (ulong_of (strtol v)) k r x c)
  | Opt 114 None => Some (mk_p a q p n k true x c)
  | Opt 120 None => Some (mk_p a q p n k r true c)
  | Opt 115 (Some v) => Some (mk_p a q p n (ulong_of (strtol v)) r x c)
  | Opt 99 (Some v) => Some (mk_p a q p n k r x (Some v))
  | _ => None
  end.
Fixpoint fold_opts {S} (f : S -> opt -> option S) (s : S) (l : list opt) : option S :=
  match l with
  | [] => Some s
  | o :: l' => match f s o with Some s' => fold_opts f s' l' | None => None end
  end.

(** What ptracer goes on to do.  The ASCII log goes to standard output or to a
    file. *)
Inductive sink := Stdout | File (f : word).
Inductive target := Attach (pid : Z) | Exec (cmd : list word).
Inductive outcome (A : Type) := Usage (status : N) | Error (status : N) | Run (a : A).
Arguments Usage {A}. Arguments Error {A}. Arguments Run {A}.
Record p_plan := mk_plan {
  pl_ascii : option sink; pl_qtrace : option word; pl_target : target;
  pl_left : N; pl_skip : N; pl_dump : bool; pl_xlate : bool; pl_chk : option word
}.
(* ptracer/main.c:318-389 *)
Definition ptracer (args : list word) : outcome p_plan :=
  let (l, ops) := getopt true o_ptracer args in
  match fold_opts p_opt p_init l with
  | None => Usage 1
  | Some s =>
      let attach := negb (Z.eqb (p_pid s) 0) in
      let cmd := match ops with [] => false | _ => true end in
      if attach && cmd then Usage 1
      else if negb attach && negb cmd then Usage 1
      else
        let ascii := match p_ascii s, p_qtrace s with
                     | None, None => Some Stdout
                     | None, Some _ => None
                     | Some f, _ => Some (File f)
                     end in
        Run (mk_plan ascii (p_qtrace s) (if attach then Attach (p_pid s) else Exec ops)
                     (p_left s) (p_skip s) (p_dump s) (p_xlate s) (p_chk s))
  end.
(* ptracer/main.c:394-401 *)
Definition skip_of (p : p_plan) (nr_pids : nat) : N :=
  match pl_target p with
  | Attach _ => if (pl_skip p =? 0) && Nat.ltb 1 nr_pids then 1000000 else pl_skip p
  | Exec _ => pl_skip p
  end.

(** ** qtdis *)
(* qtdis/qtdis.c:476: "e:d:rvbsci"; [bfd]: built with libbfd *)
Definition o_qtdis : options := fun c =>
  if existsb (N.eqb c) [101; 100] then Some true
  else if existsb (N.eqb c) [114; 118; 98; 115; 99; 105] then Some false else None.
Record d_set := mk_d {
  d_exe : list word; d_build : bool; d_dump : Z; d_raw : bool; d_stats : bool; d_imix : bool;
  d_bb : bool; d_verbose : nat
}.
Definition d_init := mk_d [] false 0 false false false false 0.
Definition d_opt (bfd : bool) (s : d_set) (o : opt) : option d_set :=
  let '(mk_d e b d r st i c v) := s in
  match o with
  | Opt 101 (Some f) => if bfd then Some (mk_d (e ++ [f]) b d r st i c v) else None
  | Opt 98 None => if bfd then Some (mk_d e true d r st i c v) else None
  | Opt 100 (Some n) => Some (mk_d e b (atoi n) r st i c v)
  | Opt 114 None => Some (mk_d e b d true st i c v)
  | Opt 115 None => Some (mk_d e b d r true i c v)
  | Opt 105 None => Some (mk_d e b d r st true c v)
  | Opt 99 None => Some (mk_d e b d r st i true v)
  | Opt 118 None => Some (mk_d e b d r st i c (S v))
  | _ => None
  end.
(* qtdis/qtdis.c:475-541: settings and the file read *)
Definition qtdis (bfd : bool) (args : list word) : outcome (d_set * word) :=
  let (l, ops) := getopt false o_qtdis args in
  match fold_opts (d_opt bfd) d_init l with
  | None => Usage 1
  | Some s =>
      match ops with
      | [f] =>
          if (d_stats s || d_bb s || d_imix s) && (negb (Nat.eqb (d_verbose s) 0) || d_raw s) then Error 1
          else Run (s, f)
      | _ => Usage 1
      end
  end.

(** ** htmdecoder *)
(* htm/htmdecoder.c:234: "Ddo:sib" *)
Definition o_htm : options := fun c =>
  if c =? 111 then Some true
  else if existsb (N.eqb c) [68; 100; 115; 105; 98] then Some false else None.
Record h_set := mk_h {
  h_debug : bool; h_detail : bool; h_out : option word; h_stats : bool; h_imix : bool; h_bb : bool
}.
Definition h_init := mk_h false false None false false false.
Definition h_opt (s : h_set) (o : opt) : option h_set :=
  let '(mk_h D d o' st i b) := s in
  match o with
  | Opt 68 None => Some (mk_h true true o' st i b)
  | Opt 100 None => Some (mk_h D true o' st i b)
  | Opt 111 (Some f) => Some (mk_h D d (Some f) st i b)
  | Opt 115 None => Some (mk_h D d o' true i b)
  | Opt 105 None => Some (mk_h D d o' st true b)
  | Opt 98 None => Some (mk_h D d o' st i true)
  | _ => None
  end.
(** The input, and the output if a trace is written. *)
Record h_plan := mk_hp { hp_set : h_set; hp_in : word; hp_out : option word }.
(* htm/htmdecoder.c:267-330; PATH_MAX is 4096 *)
Definition htmdecoder (args : list word) : outcome h_plan :=
  let (l, ops) := getopt false o_htm args in
  match fold_opts h_opt h_init l with
  | None => Usage 0
  | Some s =>
      match ops with
      | [] => Usage 1
      | input :: _ =>
          let count := h_stats s || h_bb s || h_imix s in
          let path := match h_out s with None => input ++ [46; 113; 116] | Some f => f end in
          if (match h_out s with Some _ => true | None => false end) && count then Error 1
          else if 4096 <=? N.of_nat (length path) then Error 1
          else Run (mk_hp s input (if count then None else Some path))
      end
  end.
(** The name in the message when the input cannot be opened: argv[1], in the
    order getopt leaves behind, operands last. *)
(* htm/htmdecoder.c:290-294 *)
Fixpoint consumed (o : options) (args : list word) : list word :=
  match args with
  | [] => []
  | a :: rest =>
      match a with
      | [45; 45] => [a]
      | 45 :: (c :: cs) =>
          match snd (letters o (c :: cs)) with
          | None => a :: consumed o rest
          | Some _ => match rest with [] => [a] | v :: rest' => a :: v :: consumed o rest' end
          end
      | _ => consumed o rest
      end
  end.
Definition htm_blames (args : list word) : word :=
  hd [] (consumed o_htm args ++ snd (getopt false o_htm args)).

(** ** qtrace-bbv *)
(* qtrace-bbv/qtrace-bbv.c:253: "d:k:p:v"; 70-76 *)
Definition o_bbv : options := fun c =>
  if existsb (N.eqb c) [100; 107; 112] then Some true
  else if c =? 118 then Some false else None.
Record b_set := mk_b { b_dim : N; b_k : N; b_period : N; b_verbose : nat }.
(** [dim] and [per]: the defaults *)
Definition b_opt (s : b_set) (o : opt) : option b_set :=
  let '(mk_b d k p v) := s in
  match o with
  | Opt 100 (Some n) => Some (mk_b (strtoul n mod 2 ^ 32) k p v)
  | Opt 107 (Some n) => Some (mk_b d (strtoul n mod 2 ^ 32) p v)
  | Opt 112 (Some n) => Some (mk_b d k (strtoul n) v)
  | Opt 118 None => Some (mk_b d k p (S v))
  | _ => None
  end.
Definition bbv (dim per : N) (args : list word) : outcome (b_set * word) :=
  let (l, ops) := getopt false o_bbv args in
  match fold_opts b_opt (mk_b dim 0 per 0) l with
  | None => Usage 1
  | Some s => match ops with [f] => Run (s, f) | _ => Usage 1 end
  end.
