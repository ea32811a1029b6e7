(** What the instruction statistics count.  A past is a list of pairs of
    address and instruction word, newest first. *)
Require Import NArith ZArith List Bool Permutation.
Require Import Verif.Stats_Model.
Import ListNotations.
Local Open Scope N_scope.

Definition past := list (N * N).
(** The number of moments at which [f] holds of the past. *)
Fixpoint events (f : past -> bool) (p : past) : N :=
  match p with
  | [] => 0
  | _ :: p' => (if f p then 1 else 0) + events f p'
  end.
Definition newest (f : N * N -> bool) (p : past) : bool :=
  match p with [] => false | x :: _ => f x end.

(** Address classes *)
Definition kernel (x : N * N) : bool := 12 * 2 ^ 60 <=? fst x.
Definition opal (x : N * N) : bool := fst x / 2 ^ 24 =? 0x30.
Definition user (x : N * N) : bool := negb (kernel x) && negb (opal x).
Definition library (x : N * N) : bool := user x && (7 * 2 ^ 44 <=? fst x).
Definition binary (x : N * N) : bool := user x && (fst x <? 7 * 2 ^ 44).

(** Instructions *)
Definition is (i : N) (x : N * N) : bool := snd x =? i.
Definition li (r : N) (x : N * N) : bool := snd x / 2 ^ 16 =? 14 * 2 ^ 10 + r * 2 ^ 5.
Definition mr (d s : N) : N := 31 * 2 ^ 26 + s * 2 ^ 21 + d * 2 ^ 16 + s * 2 ^ 11 + 444 * 2.
Definition sc (lev : N) : N := 17 * 2 ^ 26 + lev * 2 ^ 5 + 2.
(** mfspr [rt], [spr] for some register below [n] *)
Definition mfspr (n spr : N) (x : N * N) : bool :=
  let i := snd x in
  (i / 2 ^ 26 =? 31) && (i / 2 ^ 21 mod 2 ^ 5 <? n) && (i / 2 ^ 16 mod 2 ^ 5 =? spr mod 2 ^ 5)
  && (i / 2 ^ 11 mod 2 ^ 5 =? spr / 2 ^ 5) && (i mod 2 ^ 11 =? 339 * 2).

(** Values of the registers as far as loads of constants tell *)
Fixpoint r3 (p : past) : N :=
  match p with
  | [] => 0
  | x :: p' => if li 3 x then snd x mod 2 ^ 16 else r3 p'
  end.
Fixpoint r0 (p : past) : N :=
  match p with
  | [] => 0
  | x :: p' => if li 0 x then snd x mod 2 ^ 16 else if is (mr 0 3) x then r3 p else r0 p'
  end.

(** Exception [k] is entered at its offset, without or with translation. *)
Definition exception (k : nat) (x : N * N) : bool :=
  match nth_error exceptions k with
  | None => false
  | Some a => (fst x =? a) || (fst x =? 12 * 2 ^ 60 + 0x4000 + a)
  end.
Definition any_exception (x : N * N) : bool :=
  existsb (fun k => exception k x) (seq 0 (length exceptions)).
(** Numbers outside the table go to the last entry. *)
Definition slot (nr v : N) : nat := N.to_nat (N.min v (nr - 1)).
Definition syscall (k : nat) (p : past) : bool := newest (is (sc 0)) p && (slot 390 (r0 p) =? k)%nat.
Definition opal_entry (p : past) : bool := newest opal p && negb (newest opal (tl p)).
Definition opalcall (k : nat) (p : past) : bool := opal_entry p && (slot 171 (r0 p) =? k)%nat.
Definition hcall_is (k : nat) (token : N) : bool :=
  match nth_error hcalls k with
  | None => false
  | Some t => (t =? token) || (k =? length hcalls - 1)%nat && negb (existsb (N.eqb token) hcalls)
  end.
Definition hcall (k : nat) (p : past) : bool := newest (is (sc 1)) p && hcall_is k (r3 p).

(** Context switches: reads of VRSAVE into one of the lower 16 registers in
    the kernel; the address of the first one. *)
Definition switch (x : N * N) : bool := kernel x && mfspr 16 256 x.
Fixpoint first_switch (p : past) : N :=
  match p with
  | [] => 0
  | x :: p' => match first_switch p' with 0 => if switch x then fst x else 0 | a => a end
  end.
Definition other_switch (p : past) : bool :=
  match p with [] => false | x :: _ => switch x && negb (fst x =? first_switch p) end.

(** Idle time: distances below ten between instructions of one of two kinds. *)
Definition time_read (x : N * N) : bool := kernel x && mfspr 32 268 x.
Definition nop31 (x : N * N) : bool := kernel x && is (mr 31 31) x.
Fixpoint last_at (f : N * N -> bool) (p : past) : N :=
  match p with
  | [] => 0
  | x :: p' => if f x then N.of_nat (length p) else last_at f p'
  end.
Definition short (d : N) : N := if d mod 2 ^ 32 <? 10 then d mod 2 ^ 32 else 0.
Fixpoint idle (p : past) : N :=
  match p with
  | [] => 0
  | x :: p' => (if time_read x then short (N.of_nat (length p) - last_at time_read p') else 0)
               + (if nop31 x then short (N.of_nat (length p) - last_at nop31 p') else 0)
               + idle p'
  end.

(** Instructions and addresses are words. *)
Definition wf (x : N * N) : Prop := fst x < 2 ^ 64 /\ snd x < 2 ^ 32.

(** ** The counters of a past *)
Definition sumN (l : list N) : N := fold_right N.add 0 l.
(** [n] counts; [g] happens when one of [f k] does. *)
Definition tab (l : list N) (n : nat) (f : nat -> past -> bool) (g : past -> bool) (p : past) : Prop :=
  length l = n /\ (forall k, (k < n)%nat -> nth_error l k = Some (events (f k) p mod 2 ^ 64))
  /\ sumN (map (fun k => events (f k) p) (seq 0 n)) = events g p.
Record rel (p : past) (s : stt) : Prop := mk_rel {
  e_total : t_total s = N.of_nat (length p) mod 2 ^ 64;
  e_system : t_system s = events (newest kernel) p mod 2 ^ 64;
  e_opal : t_opal s = events (newest opal) p mod 2 ^ 64;
  e_user : t_user s = events (newest user) p mod 2 ^ 64;
  e_lib : t_lib s = events (newest library) p mod 2 ^ 64;
  e_bin : t_bin s = events (newest binary) p mod 2 ^ 64;
  e_r3 : t_r3 s = r3 p; e_r0 : t_r0 s = r0 p;
  e_idle : t_idle s = idle p mod 2 ^ 64;
  e_mftb : t_mftb s = last_at time_read p mod 2 ^ 64;
  e_mr31 : t_mr31 s = last_at nop31 p mod 2 ^ 64;
  e_ctx : t_ctx s = events (newest switch) p mod 2 ^ 64;
  e_ctx_ea : t_ctx_ea s = first_switch p;
  e_ctx_mult : t_ctx_mult s = events other_switch p mod 2 ^ 64;
  e_exc : tab (t_exc s) (length exceptions) (fun k => newest (exception k)) (newest any_exception) p;
  e_sys : tab (t_sys s) (N.to_nat NR_SYSCALLS) syscall (newest (is (sc 0))) p;
  e_opc : tab (t_opc s) (N.to_nat NR_OPALCALLS) opalcall opal_entry p;
  e_hc : tab (t_hc s) (length hcalls) hcall (newest (is (sc 1))) p;
  e_excn : t_excn s = events (newest any_exception) p mod 2 ^ 64;
  e_sysn : t_sysn s = events (newest (is (sc 0))) p mod 2 ^ 64;
  e_opcn : t_opcn s = events opal_entry p mod 2 ^ 64;
  e_hcn : t_hcn s = events (newest (is (sc 1))) p mod 2 ^ 64;
  e_opallast : t_opallast s = newest opal p }.

(** ** Instruction mix *)
(** The first entry that matches. *)
Definition hit (dialect : N) (insn : N) (po : popcode) : bool :=
  (N.land insn (po_mask po mod 2 ^ 32) =? po_opcode po mod 2 ^ 32)
  && negb (N.land (po_flags po) dialect =? 0).
Fixpoint first_hit (dialect : N) (t : list popcode) (insn : N) : option nat :=
  match t with
  | [] => None
  | po :: t' => if hit dialect insn po then Some O
                else match first_hit dialect t' insn with None => None | Some i => Some (S i) end
  end.
(** Masks contain the six bits of the major opcode. *)
Definition covers (po : popcode) : Prop := po_mask po / 2 ^ 26 mod 2 ^ 6 = 63.

(** ** Reports *)
(** qsort(3) for comparison functions that are consistent on the elements. *)
Definition consistent_on (l : list entry) (cmp : entry -> entry -> Z) : Prop :=
  (forall a b, In a l -> In b l -> Z.sgn (cmp a b) = - Z.sgn (cmp b a))%Z /\
  (forall a b c, In a l -> In b l -> In c l -> cmp a b <= 0 -> cmp b c <= 0 -> cmp a c <= 0)%Z.
Fixpoint ordered (R : entry -> entry -> Prop) (l : list entry) : Prop :=
  match l with
  | [] => True
  | a :: l' => Forall (R a) l' /\ ordered R l'
  end.
Definition sorter (qs : eqsort) : Prop := forall cmp l, consistent_on l cmp ->
  Permutation l (qs cmp l) /\ ordered (fun a b => (cmp a b <= 0)%Z) (qs cmp l).
(** A report has every entry with a count, once, in descending order. *)
Definition complete (counts : list N) (r : list entry) : Prop :=
  (forall k c, In (k, c) r <-> nth_error counts k = Some c /\ c <> 0) /\
  NoDup (map fst r) /\ ordered (fun a b => snd b <= snd a) r.
