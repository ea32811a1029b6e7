(** What the printed statistics should say of the instructions that were logged. *)
Require Import NArith ZArith List Bool String Permutation.
Require Import Verif.Stats_Model Verif.Stats_Spec Verif.Opcode_Table Verif.Opcode_Spec Verif.Names_Model.
Require Verif.Tlbdump_Spec Verif.Bb_Model Verif.Bb_Spec.
Import ListNotations.
Local Open Scope N_scope.
Local Open Scope list_scope.
Local Notation "' x" := (Tlbdump_Spec.codes x%string) (at level 0, x at level 0).

(** [h] hundredths are [n] of [d] in percent, to the nearest hundredth: off by
    half of one, and a ten-millionth of the value for the arithmetic. *)
Definition close (n d h : N) : Prop :=
  2000 * (h * d) <= 20000000 * n + 1000 * d + 2 * n /\
  20000000 * n <= 2000 * (h * d) + 1000 * d + 2 * n.

(** To the right of a column, to the left *)
Definition column (w : nat) (t : list N) : list N := repeat 32 (w - List.length t) ++ t.
Definition label (w : nat) (t : string) : list N :=
  Tlbdump_Spec.codes t ++ repeat 32 (w - String.length t).
Definition newline : list N := [10].
Definition tabulator : list N := [9].

(** The rows of a table: what has happened, once, the most frequent first. *)
Definition listing (n : nat) (count : nat -> N) (r : list (nat * N)) : Prop :=
  (forall k c, In (k, c) r <-> (k < n)%nat /\ count k = c /\ c <> 0) /\
  NoDup (List.map fst r) /\ ordered (fun a b => snd b <= snd a) r.

Section text.
Variables (dec dec02 hex16 : N -> list N) (nan : list N).
Definition hundredths (h : N) : list N := dec (h / 100) ++ '"." ++ [48 + h / 10 mod 10; 48 + h mod 10].
Definition percent (n d : N) (t : list N) : Prop :=
  if d =? 0 then n = 0 /\ t = nan else exists h, close n d h /\ t = hundredths h.
(** of nothing: nothing *)
Definition percent0 (n d : N) (t : list N) : Prop :=
  if d =? 0 then t = '"0.00" else percent n d t.

Definition named (names : list string) (r : list (nat * N)) : list N :=
  flat_map (fun e => tabulator ++ column 16 (Tlbdump_Spec.codes (nth (fst e) names ""%string)) ++ tabulator
                     ++ dec (snd e) ++ newline) r.
Definition portion (in1 : string) (w : nat) (name : string) (n : N) (t : list N) (of : string) : list N :=
  Tlbdump_Spec.codes in1 ++ label w name ++ column 8 (dec n) ++ tabulator ++ column 6 t
  ++ '"% of " ++ Tlbdump_Spec.codes of ++ newline.
(** A warning if more than a tenth of the context switches are elsewhere. *)
Definition warning (m n : N) (t : list N) : Prop :=
  (10 * m <= n -> t = []) /\ (10000001 * n < 100000000 * m -> t <> []) /\
  (t = [] \/ exists h, close m n h /\ t = '"WARNING: Context Switches fuzzy by " ++ hundredths h ++ '"%)" ++ newline).

(** -s *)
Definition stats_table (xs : list (N * N)) (t : list N) : Prop :=
  let p := rev xs in
  let total := N.of_nat (List.length xs) in
  let count f := N.of_nat (List.length (filter f xs)) in
  exists t1 t2 t3 t4 t5 t6 w r1 r2 r3 r4,
    percent (count kernel) total t1 /\ percent0 (idle p) (count kernel) t2 /\
    percent (count opal) total t3 /\ percent (count user) total t4 /\
    percent0 (count binary) (count user) t5 /\ percent0 (count library) (count user) t6 /\
    warning (events other_switch p) (count switch) w /\
    listing (List.length exceptions) (fun k => count (exception k)) r1 /\
    listing (List.length syscall_names) (fun k => events (syscall k) p) r2 /\
    listing (List.length opal_names) (fun k => events (opalcall k) p) r3 /\
    listing (List.length hcalls) (fun k => events (hcall k) p) r4 /\
    t = newline ++ '"Instructions:" ++ newline
      ++ '"  Total           " ++ dec total ++ newline
      ++ portion "    " 14 "System" (count kernel) t1 "Total"
      ++ portion "      " 12 "Idle" (idle p) t2 "System"
      ++ portion "    " 14 "OPAL" (count opal) t3 "Total"
      ++ portion "    " 14 "User" (count user) t4 "Total"
      ++ portion "      " 12 "Bin" (count binary) t5 "User"
      ++ portion "      " 12 "Lib" (count library) t6 "User"
      ++ newline ++ '"Context Switches: " ++ column 8 (dec (count switch)) ++ newline ++ w
      ++ newline ++ '"Exceptions:       " ++ column 8 (dec (count any_exception)) ++ newline
      ++ named exception_names r1
      ++ newline ++ '"Syscalls:         " ++ column 8 (dec (count (is (sc 0)))) ++ newline
      ++ named syscall_names r2
      ++ newline ++ '"OPAL Calls:       " ++ column 8 (dec (events opal_entry p)) ++ newline
      ++ named opal_names r3
      ++ newline ++ '"HCALLS Calls:     " ++ column 8 (dec (count (is (sc 1)))) ++ newline
      ++ named hcall_names r4.

(** -i: an instruction has the first entry of the opcode table that matches. *)
Definition entry_of (w : N) : option nat := first_hit dialect (removelast ppc_opcodes) w.
Definition mix_table (xs : list (N * N)) (t : list N) : Prop :=
  let total := N.of_nat (List.length xs) in
  let count f := N.of_nat (List.length (filter f (List.map snd xs))) in
  exists r ps,
    listing (List.length opcodes)
      (fun k => count (fun w => match entry_of w with Some j => Nat.eqb k j | None => false end)) r /\
    Forall2 (fun e q => percent (snd e) total q) r ps /\
    t = newline ++ '"Instruction mix:" ++ newline
      ++ flat_map (fun x => tabulator
           ++ column 16 (Tlbdump_Spec.codes (nth (fst (fst x)) (List.map oc_name opcodes) ""%string))
           ++ tabulator ++ column 9 ('" " ++ dec (snd (fst x))) ++ '" " ++ column 6 (snd x) ++ '"%" ++ newline)
           (combine r ps)
      ++ newline ++ '"UNKNOWN instruction:   "
      ++ column 16 (dec (count (fun w => match mnemonic w with Some _ => false | None => true end))) ++ newline.

(** -b: blocks of addresses, see C21. *)
Definition blocks (log : list N) (B : list Bb_Model.bbe) : Prop :=
  Permutation (flat_map Bb_Spec.block_addrs B) (Bb_Spec.firsts log) /\
  Forall (fun b => Bb_Model.b_hit b = Bb_Spec.occ (Bb_Model.b_ea b) log /\ 0 < Bb_Model.b_size b /\
                   Forall (fun a => Bb_Spec.near (Bb_Spec.occ a log) (Bb_Model.b_hit b)) (Bb_Spec.block_addrs b)) B /\
  Bb_Spec.ordered (fun a b => Bb_Model.b_size b * Bb_Model.b_hit b <= Bb_Model.b_size a * Bb_Model.b_hit a) B.
Fixpoint block_lines (i : N) (l : list (Bb_Model.bbe * list N)) : list N :=
  match l with
  | [] => []
  | (b, q) :: l' =>
      '"BBDUMP " ++ dec02 i ++ '": ea:" ++ hex16 (Bb_Model.b_ea b)
      ++ '" size:" ++ column 4 ('" " ++ dec (Bb_Model.b_size b))
      ++ '" hit:" ++ column 10 ('" " ++ dec (Bb_Model.b_hit b)) ++ '" " ++ column 5 q ++ '"% " ++ newline
      ++ block_lines (i + 1) l'
  end.
Definition block_table (log : list N) (t : list N) : Prop :=
  exists B ps, blocks log B /\
    Forall2 (fun b q => percent (Bb_Model.b_size b * Bb_Model.b_hit b) (N.of_nat (List.length log)) q) B ps /\
    t = block_lines 0 (combine B ps).
End text.
