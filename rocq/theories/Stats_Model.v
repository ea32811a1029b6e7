(** Model of qtlib/ppcstats.c: instruction statistics and instruction mix. *)
Require Import NArith ZArith List Bool.
Require Import Verif.Word.
Import ListNotations.
Local Open Scope N_scope.

(** ** Tables *)
(* qtlib/ppcstats_private.c:18-48: the addresses; names are left out *)
Definition exceptions : list N :=
  [0xc00; 0x300; 0x900; 0x400; 0xf20; 0xf40; 0xf60; 0x500; 0x100; 0x200; 0x380; 0x480; 0x600;
   0x700; 0x800; 0x980; 0xa00; 0xb00; 0xd00; 0xe00; 0xe20; 0xe40; 0xe60; 0xe80; 0xea0; 0xf00; 0xf80].
(* qtlib/ppcstats_private.c:56-448, 450-623: the lengths *)
Definition NR_SYSCALLS : N := 390.
Definition NR_OPALCALLS : N := 171.
(* qtlib/ppcstats_private.c:632-781: the tokens *)
Definition hcalls : list N :=
  [0x0; 0x4; 0x8; 0xc; 0x10; 0x14; 0x18; 0x1c; 0x20; 0x24; 0x28; 0x2c; 0x30; 0x34; 0x38; 0x3c; 0x40;
   0x44; 0x48; 0x4c; 0x50; 0x54; 0x58; 0x5c; 0x60; 0x64; 0x68; 0x6c; 0x70; 0x74; 0x7c; 0x78; 0xdc;
   0xe0; 0xe4; 0xe8; 0xec; 0xf0; 0xf4; 0xf8; 0xfc; 0x100; 0x104; 0x108; 0x110; 0x114; 0x118; 0x11c;
   0x120; 0x124; 0x130; 0x134; 0x138; 0x13c; 0x14c; 0x150; 0x154; 0x158; 0x15c; 0x160; 0x164; 0x168;
   0x16c; 0x170; 0x174; 0x178; 0x17c; 0x180; 0x184; 0x188; 0x18c; 0x190; 0x194; 0x198; 0x19c; 0x1a0;
   0x1a4; 0x1a8; 0x1ac; 0x1b0; 0x1b4; 0x1b8; 0x1bc; 0x1c0; 0x1c8; 0x1d4; 0x1e4; 0x1d8; 0x244; 0x250;
   0x254; 0x258; 0x25c; 0x260; 0x264; 0x268; 0x26c; 0x270; 0x274; 0x278; 0x284; 0x288; 0x298; 0x2a4;
   0x2a8; 0x2b0; 0x2b8; 0x2d0; 0x2d4; 0x2dc; 0x2ec; 0x2e0; 0x2e4; 0x2e8; 0x2f4; 0x2fc; 0x300; 0x304;
   0x314; 0x31c; 0x328; 0x358; 0x360; 0x36c; 0x370; 0x37c; 0x380; 0x3a8; 0x3ac; 0x3b0; 0x3b4; 0x3b8;
   0x3bc; 0x3c0; 0x3c4; 0x3c8; 0x3cc; 0x3d0; 0x3e4; 0x3e8; 0x3ec; 0x3f0; 0x3f4; 0x3f8; 0x3fc; 0x400;
   0x401].

(** ** State *)
(* qtlib/ppcstats.c:60-93; the [count] members of the tables are lists *)
Record stt := mk_stt {
  t_total : N; t_system : N; t_opal : N; t_user : N; t_lib : N; t_bin : N;
  t_r3 : N; t_r0 : N; t_idle : N; t_mftb : N; t_mr31 : N;
  t_ctx : N; t_ctx_ea : N; t_ctx_mult : N;
  t_exc : list N; t_sys : list N; t_opc : list N; t_hc : list N;
  t_excn : N; t_sysn : N; t_opcn : N; t_hcn : N; t_opallast : bool }.
Definition stt0 : stt :=
  mk_stt 0 0 0 0 0 0 0 0 0 0 0 0 0 0
    (repeat 0 (length exceptions)) (repeat 0 (N.to_nat NR_SYSCALLS))
    (repeat 0 (N.to_nat NR_OPALCALLS)) (repeat 0 (length hcalls)) 0 0 0 0 false.

Definition inc (x : N) : N := add64 x 1.
(** l[i].count++; [None] is an access outside the array *)
Fixpoint bump (i : nat) (l : list N) : option (list N) :=
  match l, i with
  | [], _ => None
  | x :: l', O => Some (inc x :: l')
  | x :: l', S i' => match bump i' l' with None => None | Some r => Some (x :: r) end
  end.
Fixpoint index (a : N) (l : list N) : option nat :=
  match l with
  | [] => None
  | x :: l' => if x =? a then Some O else match index a l' with None => None | Some i => Some (S i) end
  end.

(* qtlib/ppcstats.c:102-121: the entry found *)
Definition exception_entry (ea : N) : option nat :=
  if negb (N.land ea 0xfffffffffffff01f =? 0xc000000000004000)
     && negb (N.land ea 0xfffffffffffff01f =? 0) then None
  else index (N.land ea 0xfff) exceptions.
(* qtlib/ppcstats.c:123-132; the argument is uint32_t *)
Definition hcall_find (token : N) : nat :=
  match index (u32 token) hcalls with Some i => i | None => (length hcalls - 1)%nat end.

(* qtlib/ppcstats.c:177-268, with s.total already incremented.  [None] is an
   access outside a table. *)
Definition log_stats (s : stt) (ea insn : N) : option stt :=
  let system := 0xc000000000000000 <=? ea in
  let opal := negb system && (N.land ea 0xFFFFFFFFFF000000 =? 0x30000000) in
  let user := negb system && negb opal in
  let lib := user && (0x700000000000 <=? ea) in
  let bin := user && negb (0x700000000000 <=? ea) in
  let c (b : bool) x := if b then inc x else x in
  let exc := exception_entry ea in
  let r3 := if N.land insn 0xffff0000 =? 0x38600000 then N.land insn 0xffff else t_r3 s in
  let r0 := if insn =? 0x7c601b78 then r3 else t_r0 s in
  let r0 := if N.land insn 0xffff0000 =? 0x38000000 then N.land insn 0xffff else r0 in
  let sc := insn =? 0x44000002 in
  let hc := insn =? 0x44000022 in
  let oc := opal && negb (t_opallast s) in
  let ctx := system && (N.land insn 0xfe1fffff =? 0x7c0042a6) in
  let ctx_ea := if ctx && (t_ctx_ea s =? 0) then ea else t_ctx_ea s in
  let mftb := system && (N.land insn 0xfc1fffff =? 0x7c0c42a6) in
  let mr31 := system && (insn =? 0x7ffffb78) in
  let i1 := u32 (sub64 (t_total s) (t_mftb s)) in
  let idle := if mftb && (i1 <? 10) then add64 (t_idle s) i1 else t_idle s in
  let i2 := u32 (sub64 (t_total s) (t_mr31 s)) in
  let idle := if mr31 && (i2 <? 10) then add64 idle i2 else idle in
  match (match exc with Some i => bump i (t_exc s) | None => Some (t_exc s) end),
        (if sc then bump (N.to_nat (if NR_SYSCALLS <=? r0 then NR_SYSCALLS - 1 else r0)) (t_sys s)
         else Some (t_sys s)),
        (if oc then bump (N.to_nat (if NR_OPALCALLS <=? r0 then NR_OPALCALLS - 1 else r0)) (t_opc s)
         else Some (t_opc s)),
        (if hc then bump (hcall_find r3) (t_hc s) else Some (t_hc s)) with
  | Some e, Some sy, Some o, Some h =>
      Some (mk_stt (t_total s) (c system (t_system s)) (c opal (t_opal s)) (c user (t_user s))
              (c lib (t_lib s)) (c bin (t_bin s)) r3 r0 idle
              (if mftb then t_total s else t_mftb s) (if mr31 then t_total s else t_mr31 s)
              (c ctx (t_ctx s)) ctx_ea
              (c (ctx && negb (ea =? ctx_ea)) (t_ctx_mult s))
              e sy o h
              (c (match exc with Some _ => true | None => false end) (t_excn s))
              (c sc (t_sysn s)) (c oc (t_opcn s)) (c hc (t_hcn s)) opal)
  | _, _, _, _ => None
  end.

(* qtlib/ppcstats.c:318-326 without the instruction mix *)
Definition set_total (n : N) (s : stt) : stt :=
  mk_stt n (t_system s) (t_opal s) (t_user s) (t_lib s) (t_bin s) (t_r3 s) (t_r0 s) (t_idle s)
    (t_mftb s) (t_mr31 s) (t_ctx s) (t_ctx_ea s) (t_ctx_mult s) (t_exc s) (t_sys s) (t_opc s)
    (t_hc s) (t_excn s) (t_sysn s) (t_opcn s) (t_hcn s) (t_opallast s).
Definition log_inst (s : stt) (x : N * N) : option stt :=
  log_stats (set_total (inc (t_total s)) s) (fst x) (snd x).
Fixpoint log_all (s : stt) (xs : list (N * N)) : option stt :=
  match xs with
  | [] => Some s
  | x :: r => match log_inst s x with None => None | Some s' => log_all s' r end
  end.

(** ** Instruction mix *)
(* qtlib/ppc.h:35-63, without name, deprecated and operands *)
Record popcode := mk_popcode { po_opcode : N; po_mask : N; po_flags : N }.
(* qtlib/ppcstats.c:87-92.  The hash table of opcodes is a list of pairs; a
   found element is one with that opcode, as C35 shows of the table. *)
Record mix := mk_mix {
  x_major : list (Z * Z); x_count : list N; x_unknown : N;
  x_cache : list (N * nat); x_hits : N; x_misses : N }.

Section MIX.
  (** The opcode table and the flags of DIALECT. *)
  Variable table : list popcode.
  Variable dialect : N.

  (* qtlib/ppcstats.c:163-174, one iteration *)
  Definition major_step (m : list (Z * Z)) (i : nat) (po : popcode) : list (Z * Z) :=
    let prefix := N.to_nat (N.land 0x3f (N.shiftr (po_opcode po) 26)) in
    let '(start, _) := nth prefix m (-1, 0)%Z in
    firstn prefix m ++ [((if (start =? -1)%Z then Z.of_nat i else start), Z.of_nat i)]
      ++ skipn (S prefix) m.
  Fixpoint majors (m : list (Z * Z)) (i : nat) (t : list popcode) : list (Z * Z) :=
    match t with
    | [] => m
    | po :: t' => majors (major_step m i po) (S i) t'
    end.
  (* qtlib/ppcstats.c:141-175: the loop leaves out the last opcode *)
  Definition mix_init : mix :=
    mk_mix (majors (repeat (-1, 0)%Z 64) 0 (removelast table)) (repeat 0 (length table)) 0 [] 0 0.

  (* qtlib/ppcstats.c:298-299 *)
  Definition matches (po : popcode) (insn : N) : bool :=
    (N.land insn (u32 (po_mask po)) =? u32 (po_opcode po))
    && negb (N.land (po_flags po) dialect =? 0).
  (* qtlib/ppcstats.c:295-315: the comparison is one of uint32_t *)
  Fixpoint search (fuel : nat) (i last insn : N) : option (option nat) :=
    if i <=? last then
      match fuel with
      | O => None
      | S fuel' =>
          match nth_error table (N.to_nat i) with
          | None => None
          | Some po => if matches po insn then Some (Some (N.to_nat i)) else search fuel' (i + 1) last insn
          end
      end
    else Some None.
  Definition cache_get (c : list (N * nat)) (insn : N) : option nat :=
    match find (fun p => fst p =? insn) c with Some (_, i) => Some i | None => None end.

  (* qtlib/ppcstats.c:270-316; [None]: access outside the opcode table *)
  Definition log_mix (x : mix) (insn : N) : option mix :=
    match cache_get (x_cache x) insn with
    | Some i =>
        match bump i (x_count x) with
        | None => None
        | Some l => Some (mk_mix (x_major x) l (x_unknown x) (x_cache x) (inc (x_hits x)) (x_misses x))
        end
    | None =>
        let '(start, last) := nth (N.to_nat (N.shiftr insn 26)) (x_major x) (-1, 0)%Z in
        match search (S (length table)) (Z.to_N (start mod 2 ^ 32)) (Z.to_N (last mod 2 ^ 32)) insn with
        | None => None
        | Some (Some i) =>
            match bump i (x_count x) with
            | None => None
            | Some l => Some (mk_mix (x_major x) l (x_unknown x) ((insn, i) :: x_cache x) (x_hits x)
                                (inc (x_misses x)))
            end
        | Some None =>
            Some (mk_mix (x_major x) (x_count x) (inc (x_unknown x)) (x_cache x) (x_hits x)
                    (inc (x_misses x)))
        end
    end.
  Fixpoint mix_all (x : mix) (insns : list N) : option mix :=
    match insns with
    | [] => Some x
    | i :: r => match log_mix x i with None => None | Some x' => mix_all x' r end
    end.
End MIX.

(** ** Report *)
(* qtlib/ppcstats.c:328-349: a table entry is its number and its count *)
Definition entry := (nat * N)%type.
Definition entry_compare (a b : entry) : Z := s32 (sub64 (snd b) (snd a)).
Definition eqsort := (entry -> entry -> Z) -> list entry -> list entry.
(* qtlib/ppcstats.c:381-388, 400-416: sorted, then those with a count *)
Definition report (qs : eqsort) (counts : list N) : list entry :=
  filter (fun e => negb (snd e =? 0)) (qs entry_compare (combine (seq 0 (length counts)) counts)).
(* qtlib/ppcstats.c:391-397 and 419-441: stops at the first without *)
Fixpoint until_zero (l : list entry) : list entry :=
  match l with
  | [] => []
  | e :: l' => if snd e =? 0 then [] else e :: until_zero l'
  end.
Definition report_until (qs : eqsort) (counts : list N) : list entry :=
  until_zero (qs entry_compare (combine (seq 0 (length counts)) counts)).
