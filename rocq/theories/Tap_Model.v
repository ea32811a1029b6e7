(** Model of qtrace-bbv/ccan/tap/tap.c: the tests, their plan and their report. *)
Require Import NArith List Bool String.
Require Import Verif.Vtext_Model.
Require Verif.Tlbdump_Model.
Import ListNotations.
Local Open Scope N_scope.
Local Open Scope list_scope.

Local Notation "' x" := (chars x%string) (at level 0, x at level 0).
Local Notation dec := Tlbdump_Model.dec.

(** %d of an unsigned int *)
Definition d32 (n : N) : list N := if n <? 2 ^ 31 then dec n else 45 :: dec (2 ^ 32 - n).
Definition u32 (n : N) : N := n mod 2 ^ 32.

(** todo_msg: the null pointer, a message, or memory that was freed *)
Inductive memo := MNull | MText (t : list N) | MFreed.
(* tap.c:36-46; [t_init]: _tap_init was called (tap.c:259-274) *)
Record tap := mk_tap {
  t_init : bool; t_no_plan : bool; t_skip_all : bool; t_have_plan : bool;
  t_count : N; t_expected : N; t_failures : N; t_todo : bool; t_msg : memo; t_died : bool
}.
Definition tap0 : tap := mk_tap false false false false 0 0 0 false MNull false.

(** The calls of a test program.  Formats are expanded already, [None] in place
    of a text: vasprintf has no memory.  The outer option of a name: it may be
    the null pointer. *)
Inductive call :=
| TPlan (n : N)
| TNoPlan
| TSkipAll (reason : option (list N))
| TOk (ok : bool) (func file : list N) (line : N) (name : option (option (list N)))
| TDiag (text : list N)
| TSkip (n : nat) (text : option (list N))
| TTodo (text : option (list N))
| TTodoEnd.

(* tap.c:74-80 *)
Definition note (t : list N) : list N := '"# " ++ t ++ [10].
Definition fixed_text : list N := '"libtap malloc issue".
(** isdigit and isspace in the C locale *)
Definition digit_or_space (c : N) : bool := ((48 <=? c) && (c <=? 57)) || (c =? 32) || ((9 <=? c) && (c <=? 13)).
(* tap.c:153-157 *)
Definition escape (t : list N) : list N := flat_map (fun c => if c =? 35 then [92; 35] else [c]) t.

Section RESULT.
  Variable s : tap.
  (* tap.c:119-136 *)
  Definition name_notes (name : option (option (list N))) : list N :=
    match name with
    | Some (Some t) =>
        if forallb digit_or_space t then
          note ('"    You named your test '" ++ t ++ '"'.  You shouldn't use numbers for your test names.")
          ++ note '"    Very confusing."
        else []
    | _ => []
    end.
  (* tap.c:146-162 *)
  Definition name_text (name : option (option (list N))) : list N :=
    match name with
    | None => []
    | Some None => '" - " ++ fixed_text
    | Some (Some t) => '" - " ++ escape t
    end.
  (* tap.c:172-173 *)
  Definition todo_text : list N := '" # TODO " ++ match t_msg s with MText t => t | _ => fixed_text end.
  (* tap.c:98-193 *)
  Definition gen_text (ok : bool) (func file : list N) (line : N) (name : option (option (list N))) : list N :=
    name_notes name ++ (if ok then [] else '"not ") ++ '"ok " ++ d32 (u32 (t_count s + 1)) ++ name_text name
    ++ (if t_todo s then todo_text else []) ++ [10]
    ++ (if ok then [] else note ('"    Failed " ++ (if t_todo s then '"(TODO) " else []) ++ '"test (" ++ file ++ '":" ++ func
                                 ++ '"() at line " ++ d32 line ++ '")")).
  Definition gen_state (ok : bool) : tap :=
    mk_tap (t_init s) (t_no_plan s) (t_skip_all s) (t_have_plan s) (u32 (t_count s + 1)) (t_expected s)
           (if ok || t_todo s then t_failures s else u32 (t_failures s + 1)) (t_todo s) (t_msg s) (t_died s).
End RESULT.

(* tap.c:382-387 *)
Fixpoint skip_loop (n : nat) (count : N) (m : list N) : list N * N :=
  match n with
  | O => ([], count)
  | S n' =>
      let c := u32 (count + 1) in
      let (t, c') := skip_loop n' c m in ('"ok " ++ d32 c ++ '" # skip " ++ m ++ [10] ++ t, c')
  end.

(** After a call the program goes on, or has called exit(255), or it frees
    memory twice. *)
Inductive tres := TGo (out : list N) (s : tap) | TExit (s : tap) | TUndefined.
Definition started (s : tap) : tap :=
  mk_tap true (t_no_plan s) (t_skip_all s) (t_have_plan s) (t_count s) (t_expected s) (t_failures s) (t_todo s) (t_msg s) (t_died s).
Definition die (s : tap) : tap :=
  mk_tap true (t_no_plan s) (t_skip_all s) (t_have_plan s) (t_count s) (t_expected s) (t_failures s) (t_todo s) (t_msg s) true.
Definition tap_call (s : tap) (c : call) : tres :=
  match c with
  | TNoPlan => (* tap.c:279-298 *)
      if t_have_plan s then TExit (die s)
      else TGo [] (mk_tap true true (t_skip_all s) true (t_count s) (t_expected s) (t_failures s) (t_todo s) (t_msg s) (t_died s))
  | TSkipAll r => (* tap.c:303-321 *)
      TGo ('"1..0" ++ match r with Some t => '" # Skip " ++ t | None => [] end ++ [10])
          (mk_tap true (t_no_plan s) true (t_have_plan s) (t_count s) (t_expected s) (t_failures s) (t_todo s) (t_msg s) (t_died s))
  | TPlan n => (* tap.c:326-353, 66-72 *)
      if t_have_plan s then TExit (die s)
      else if n =? 0 then TExit (die s)
      else TGo ('"1.." ++ d32 n ++ [10])
               (mk_tap true (t_no_plan s) (t_skip_all s) true (t_count s) n (t_failures s) (t_todo s) (t_msg s) (t_died s))
  | TOk ok func file line name => TGo (gen_text s ok func file line name) (gen_state s ok)
  | TDiag t => TGo (note t) s (* tap.c:355-367 *)
  | TSkip n m => (* tap.c:369-392 *)
      let (t, c) := skip_loop n (t_count s) (match m with Some t => t | None => '"libtap():malloc() failed" end) in
      TGo t (mk_tap (t_init s) (t_no_plan s) (t_skip_all s) (t_have_plan s) c (t_expected s) (t_failures s) (t_todo s) (t_msg s) (t_died s))
  | TTodo m => (* tap.c:394-409 *)
      TGo [] (mk_tap (t_init s) (t_no_plan s) (t_skip_all s) (t_have_plan s) (t_count s) (t_expected s) (t_failures s) true
                     (match m with Some t => MText t | None => MNull end) (t_died s))
  | TTodoEnd => (* tap.c:411-421: todo_msg keeps its value *)
      match t_msg s with
      | MFreed => TUndefined
      | m => TGo [] (mk_tap (t_init s) (t_no_plan s) (t_skip_all s) (t_have_plan s) (t_count s) (t_expected s) (t_failures s) false
                            (match m with MNull => MNull | _ => MFreed end) (t_died s))
      end
  end.

(* tap.c:199-253, in the process that called _tap_init *)
Definition cleanup (s : tap) : list N :=
  if negb (t_init s) then []
  else if negb (t_no_plan s) && negb (t_have_plan s) && negb (t_skip_all s) then
    note '"Looks like your test died before it could output anything."
  else if t_died s then note ('"Looks like your test died just after " ++ d32 (t_count s) ++ '".")
  else
    (if negb (t_skip_all s) && (t_no_plan s || negb (t_have_plan s)) then '"1.." ++ d32 (t_count s) ++ [10] else [])
    ++ if t_have_plan s && negb (t_no_plan s) && (t_expected s <? t_count s) then
         note ('"Looks like you planned " ++ d32 (t_expected s) ++ '" tests but ran " ++ d32 (t_count s - t_expected s) ++ '" extra.")
       else if (t_have_plan s || negb (t_no_plan s)) && (t_count s <? t_expected s) then
         note ('"Looks like you planned " ++ d32 (t_expected s) ++ '" tests but only ran " ++ d32 (t_count s) ++ '".")
         ++ (if t_failures s =? 0 then []
             else note ('"Looks like you failed " ++ d32 (t_failures s) ++ '" tests of " ++ d32 (t_count s) ++ '" run."))
       else if t_failures s =? 0 then []
       else note ('"Looks like you failed " ++ d32 (t_failures s) ++ '" tests of " ++ d32 (t_count s) ++ '".").

(* tap.c:423-459; the int as what exit() makes of it *)
Definition exit_int (s : tap) : N :=
  if t_no_plan s || negb (t_have_plan s) then t_failures s
  else if t_expected s <? t_count s then t_count s - t_expected s
  else u32 (t_failures s + t_expected s + 2 ^ 32 - t_count s).
Definition exit_status (s : tap) : N :=
  let r := exit_int s in
  if r <? 2 ^ 31 then (if 255 <? r then 255 else r) else r mod 256.

(** A program that makes its calls and then returns exit_status() from main:
    standard output and the status; [None] if memory is freed twice. *)
Fixpoint tap_run (s : tap) (cs : list call) : option (list N * N) :=
  match cs with
  | [] => Some (cleanup s, exit_status s)
  | c :: cs' =>
      match tap_call s c with
      | TGo out s' => match tap_run s' cs' with Some (t, r) => Some (out ++ t, r) | None => None end
      | TExit s' => Some (cleanup s', 255)
      | TUndefined => None
      end
  end.
