(** Model of the register dump of ptracer (ptracer/main.c 76-82, 108-221,
    223-246 with -a and -r; ptracer/ascii.c 274-290). *)
Require Import Arith NArith List Bool.
Require Import Verif.Word.
Import ListNotations.
Local Open Scope N_scope.

(** What the kernel answers: struct pt_regs as far as it is used, 32 vector
    registers and VSCR, VRSAVE, 32 floating point registers and FPSCR, and the
    other halves of the first 32 vector-scalar registers. *)
Record answer := mk_answer {
  a_gpr : list N; a_ctr : N; a_link : N; a_xer : N; a_ccr : N;
  a_vr : list N; a_vrsave : N;
  a_fpr : list N;
  a_vsx : list N
}.

(* ptracer/main.c:76-81 *)
Record state := mk_state {
  s_gpr : list N; s_ctr : N; s_link : N; s_xer : N; s_ccr : N;
  s_vmx : list N;     (* 34 of 128 bits *)
  s_vsx : list N;     (* 32 of 128 bits *)
  s_fpscr : N
}.
(* ptracer/main.c:82, static *)
Definition zero_state : state := mk_state (repeat 0 32) 0 0 0 0 (repeat 0 34) (repeat 0 32) 0.

(** The last element of vmx_regs: the kernel stores the four bytes of VRSAVE
    at its start, the rest keeps the pattern of line 162. *)
Definition vrsave_image (le : bool) (v : N) : N :=
  if le then v + 2 ^ 32 * 0xa5a5a5a5a5a5a5a5a5a5a5a5 else v * 2 ^ 96 + 0xa5a5a5a5a5a5a5a5a5a5a5a5.

(* ptracer/main.c:149-155; shifting into the sign of __int128 does what gcc
   documents *)
Definition pair128 (le : bool) (fpr vsx : N) : N :=
  if le then N.lor (N.shiftl vsx 64) fpr else N.lor (N.shiftl fpr 64) vsx.

(* ptracer/main.c:108-167 *)
Definition get_state (le : bool) (a : answer) : state :=
  mk_state (a_gpr a) (a_ctr a) (a_link a) (a_xer a) (a_ccr a)
    (a_vr a ++ [vrsave_image le (a_vrsave a)])
    (List.map (fun i => pair128 le (nth i (a_fpr a) 0) (nth i (a_vsx a) 0)) (seq 0 32))
    (u32 (nth 32 (a_fpr a) 0)).

(** Names of registers, as printed. *)
Inductive reg := GPR (i : nat) | VR (i : nat) | VSCR | VRSAVE | VSR (i : nat)
               | CTR | LR | XER | CR | FPSCR.
(** Digits after 0x *)
Inductive width := W32 | W64 | W128.
Record line := mk_line { l_reg : reg; l_width : width; l_val : N }.

(* ptracer/main.c:169-188 *)
Definition compare32 (prev cur : N) (r : reg) : list line :=
  if u32 prev =? u32 cur then [] else [mk_line r W32 (u32 cur)].
Definition compare64 (prev cur : N) (r : reg) : list line :=
  if prev =? cur then [] else [mk_line r W64 cur].
Definition compare128 (prev cur : N) (r : reg) : list line :=
  if prev =? cur then [] else [mk_line r W128 cur].

(* ptracer/main.c:190-239 *)
Definition print_state (le : bool) (p c : state) : list line :=
  flat_map (fun i => compare64 (nth i (s_gpr p) 0) (nth i (s_gpr c) 0) (GPR i)) (seq 0 32)
  ++ flat_map (fun i => compare128 (nth i (s_vmx p) 0) (nth i (s_vmx c) 0) (VR i)) (seq 0 32)
  ++ compare32 (nth 32 (s_vmx p) 0) (nth 32 (s_vmx c) 0) VSCR
  ++ (if le then compare32 (nth 33 (s_vmx p) 0) (nth 33 (s_vmx c) 0) VRSAVE
      else compare32 (N.shiftr (nth 33 (s_vmx p) 0) 96) (N.shiftr (nth 33 (s_vmx c) 0) 96) VRSAVE)
  ++ flat_map (fun i => compare128 (nth i (s_vsx p) 0) (nth i (s_vsx c) 0) (VSR i)) (seq 0 32)
  ++ compare64 (s_ctr p) (s_ctr c) CTR
  ++ compare64 (s_link p) (s_link c) LR
  ++ compare64 (s_xer p) (s_xer c) XER
  ++ compare32 (s_ccr p) (s_ccr c) CR
  ++ compare64 (s_fpscr p) (s_fpscr c) FPSCR.

(** The log: register lines, and a line for the instruction. *)
Inductive item := IReg (l : line) | IInsn (pc insn : N).

(** ptracer/main.c:243-276 with -a, for a sequence of calls: each the address,
    the word there and, if the kernel answers, the registers.  [dump] is -r,
    [skip] and [left] are nr_insns_skip and nr_insns_left ([None]: -1UL, no
    limit).  The boolean says that the program exited. *)
Fixpoint log (le dump : bool) (skip : nat) (left : option nat) (prev : state)
             (l : list (N * N * option answer)) : list item * bool :=
  match l with
  | [] => ([], false)
  | (pc, insn, a) :: l' =>
      match skip with
      | S skip' => log le dump skip' left prev l'
      | O =>
          match left with
          | Some O => log le dump O left prev l'
          | _ =>
              let left' := match left with Some n => Some (Nat.pred n) | None => None end in
              if dump then
                match a with
                | None => ([], true)
                | Some a =>
                    let cur := get_state le a in
                    let (r, e) := log le dump O left' cur l' in
                    (List.map IReg (print_state le prev cur) ++ IInsn pc insn :: r, e)
                end
              else
                let (r, e) := log le dump O left' prev l' in (IInsn pc insn :: r, e)
          end
      end
  end.

(** ** Text: characters are their codes *)
Definition digit (n : N) : N := if n <? 10 then 48 + n else 87 + n.
(* %0nlx for values of at most n digits *)
Fixpoint hex (n : nat) (v : N) : list N :=
  match n with
  | O => []
  | S n' => digit ((v / 16 ^ N.of_nat n') mod 16) :: hex n' v
  end.
(* %02d below 100 *)
Definition dec2 (i : nat) : list N := [48 + N.of_nat (i / 10); 48 + N.of_nat (i mod 10)].
(* ptracer/main.c:199-238 *)
Definition name (r : reg) : list N :=
  match r with
  | GPR i => [71; 80; 82] ++ dec2 i
  | VR i => [86; 82] ++ dec2 i ++ [32]
  | VSCR => [86; 83; 67; 82]
  | VRSAVE => [86; 82; 83; 65; 86; 69]
  | VSR i => [86; 83; 82] ++ dec2 i
  | CTR => [67; 84; 82]
  | LR => [76; 82]
  | XER => [88; 69; 82]
  | CR => [67; 82]
  | FPSCR => [70; 80; 83; 67; 82]
  end.
(* ptracer/main.c:169-188: "\t%s 0x%08x\n", "\t%s 0x%016lx\n",
   "\t%s 0x%016lx%016lx\n" *)
Definition render (l : line) : list N :=
  [9] ++ name (l_reg l) ++ [32; 48; 120]
  ++ match l_width l with
     | W32 => hex 8 (l_val l)
     | W64 => hex 16 (l_val l)
     | W128 => hex 16 (N.shiftr (l_val l) 64) ++ hex 16 (N.land (l_val l) 0xffffffffffffffff)
     end
  ++ [10].
