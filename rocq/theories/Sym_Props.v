Require Import NArith List Bool.
Require Import Verif.Sym_Model Verif.Sym_Spec Verif.Sym_Proofs.
Import ListNotations.
Local Open Scope N_scope.

(** A lookup in the table qtdis builds never leaves the array.  It gives a
    symbol exactly when there are symbols on both sides of the address, and
    then one with the greatest value not above the address. *)
Theorem C46_lookup : forall qsort start normal dyn addr, sorts qsort ->
  let syms := build_symtab qsort start normal dyn in
  (forall s, symfind syms addr = Found s ->
     considered start normal dyn s /\ s_value s <= addr /\
     forall s', considered start normal dyn s' -> s_value s' <= addr -> s_value s' <= s_value s) /\
  ((exists s, symfind syms addr = Found s) <->
     (exists s, considered start normal dyn s /\ s_value s <= addr) /\
     (exists s, considered start normal dyn s /\ addr <= s_value s)) /\
  symfind syms addr <> Oob.
Proof. exact lookup. Qed.
Print Assumptions C46_lookup.

(** The printed symbol and offset add up to the address, and no symbol gives a
    smaller offset. *)
Theorem C46_text : forall qsort start normal dyn vma, sorts qsort -> vma < 2 ^ 64 ->
  match print_address (build_symtab qsort start normal dyn) vma with
  | Symbolic v name off =>
      v = vma /\ exists s, considered start normal dyn s /\ name = s_name s /\ s_value s + off = vma /\
        forall s', considered start normal dyn s' -> s_value s' <= vma -> off <= vma - s_value s'
  | Plain v =>
      v = vma /\ ((forall s, considered start normal dyn s -> vma < s_value s) \/
                  (forall s, considered start normal dyn s -> s_value s < vma))
  | Undefined => False
  end.
Proof. exact qtdis_text. Qed.
Print Assumptions C46_text.

(** The tracer looks in the table that starts last at or below the address. *)
Theorem C46_tracer : forall ts vma, vma < 2 ^ 64 ->
  (forall t, In t ts -> ascending (st_syms t) /\ st_offset t <= st_base t) ->
  match print_address_ascii ts vma with
  | Symbolic v name off =>
      v = vma /\
      exists t s, responsible ts vma t /\ nearest_below (st_syms t) (vma - st_offset t) s /\
        enclosed (st_syms t) (vma - st_offset t) /\
        name = s_name s /\ st_offset t + s_value s + off = vma
  | Plain v =>
      v = vma /\ forall t, responsible ts vma t -> ~ enclosed (st_syms t) (vma - st_offset t)
  | Undefined => False
  end.
Proof. exact ascii_lookup. Qed.
Print Assumptions C46_tracer.

(** The tables made from a memory map with a file behind every executable
    mapping and at most 256 readable ones. *)
Theorem C46_maps : forall table ls,
  (forall l, In l ls -> m_exec l = true -> m_file l <> None) ->
  (length (tables_from table 0 (exec_lines ls)) <= 256)%nat ->
  initialise_mem_map table ls = Tables (tables_from table 0 (exec_lines ls)).
Proof. exact maps_ok. Qed.
Print Assumptions C46_maps.

(** With more mappings the array is overrun. *)
Theorem C46_overrun_refuted : ~ (forall table ls,
  (forall l, In l ls -> m_exec l = true -> m_file l <> None) ->
  initialise_mem_map table ls <> Overrun).
Proof. exact overrun_refuted. Qed.
Print Assumptions C46_overrun_refuted.

(** An anonymous executable mapping uses a file name that was not set. *)
Theorem C46_anonymous_refuted : ~ (forall table ls, initialise_mem_map table ls <> Unset).
Proof. exact anonymous_refuted. Qed.
Print Assumptions C46_anonymous_refuted.

(** An address inside of the last function gets no symbol. *)
Theorem C46_past_last_refuted : ~ (forall qsort start normal dyn addr, sorts qsort ->
  (exists s, considered start normal dyn s /\ s_value s <= addr) ->
  symfind (build_symtab qsort start normal dyn) addr <> Null).
Proof. exact past_last_refuted. Qed.
Print Assumptions C46_past_last_refuted.

(** The comparison handed to qsort is not one. *)
Theorem C46_symcmp_refuted : ~ (forall a b, symcmp a b = 0 <-> symcmp b a = 0).
Proof. exact symcmp_refuted. Qed.
Print Assumptions C46_symcmp_refuted.

Definition ex_syms : list sym := [mk_sym 16 1; mk_sym 32 2; mk_sym 32 3; mk_sym 48 4; mk_sym 64 5].
Example C46_ex : map (symfind ex_syms) [15; 16; 31; 33; 47; 63; 64; 65] =
  [Null; Found (mk_sym 16 1); Found (mk_sym 16 1); Found (mk_sym 32 3); Found (mk_sym 32 3);
   Found (mk_sym 48 4); Found (mk_sym 64 5); Null].
Proof. reflexivity. Qed.
Example C46_kernel_ex :
  build_symtab (fun l => l) KERNEL_START [mk_sym 16 1; mk_sym (KERNEL_START + 8) 2] [] =
    [mk_sym (KERNEL_START + 8) 2].
Proof. reflexivity. Qed.
Example C46_tracer_ex :
  let ts := [mk_st ex_syms 8 0; mk_st ex_syms 1000 1000; mk_st ex_syms 500 500] in
  map (print_address_ascii ts) [7; 20; 540; 1050; 1099] =
    [Plain 7; Symbolic 20 1 4; Symbolic 540 3 8; Symbolic 1050 4 2; Plain 1099].
Proof. reflexivity. Qed.
Example C46_maps_ex :
  initialise_mem_map (fun f => if f =? 7 then None else Some [mk_sym f f])
    [mk_line 10 false None; mk_line 20 true (Some 1); mk_line 30 true (Some 7); mk_line 40 true (Some 2)] =
  Tables [mk_st [mk_sym 1 1] 20 0; mk_st [mk_sym 2 2] 40 40].
Proof. reflexivity. Qed.
