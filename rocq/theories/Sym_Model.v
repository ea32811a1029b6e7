(** Model of the symbol lookup of qtdis/qtdis.c:88-215 and
    ptracer/ascii.c:14-185.  libbfd is the environment: it gives a list of
    symbols per file, and qsort is a function of the list.  A bfd error
    (a negative symbol count) is not modelled. *)
Require Import NArith List Bool.
Import ListNotations.
Local Open Scope N_scope.

Definition MASK64 : N := 18446744073709551615.
Definition sub64 (a b : N) : N := N.land (a + (MASK64 + 1) - b) MASK64.

(** A symbol: what bfd_asymbol_value and bfd_asymbol_name say about it. *)
Record sym := mk_sym { s_value : N; s_name : N }.

(* qtdis.c:98-104, ascii.c:26-32: an int that is 0 or 1 *)
Definition symcmp (a b : sym) : N := if s_value b <? s_value a then 1 else 0.

(* qtdis.c:106 *)
Definition KERNEL_START : N := 13835058055282163712.

(* qtdis.c:134-142: the loop copies the kept symbols to the front *)
Fixpoint strip (l : list sym) : list sym :=
  match l with
  | [] => []
  | s :: l => if KERNEL_START <=? s_value s then s :: strip l else strip l
  end.
Section SORT.
  Variable qsort : list sym -> list sym.
  (* qtdis.c:108-146; [dyn] are the dynamic symbols, used when there are no
     others *)
  Definition build_symtab (start : N) (normal dyn : list sym) : list sym :=
    let l := match normal with [] => dyn | _ => normal end in
    qsort (if start =? KERNEL_START then strip l else l).
  (* ascii.c:34-47 *)
  Definition build_symtab_ascii (normal dyn : list sym) : list sym :=
    qsort (match normal with [] => dyn | _ => normal end).
End SORT.

(** Outcome of a lookup; [Oob]: the array is read outside of its bounds. *)
Inductive found := Oob | Null | Found (s : sym).

(* qtdis.c:157-172, ascii.c:84-100; every round takes at least one element off
   the distance of left and right, running out of [fuel] does not happen *)
Fixpoint search (syms : list sym) (addr : N) (fuel left right : nat) : option nat :=
  match fuel with
  | O => None
  | S fuel =>
      if Nat.ltb (left + 1) right then
        let middle := Nat.div2 (right + left) in
        match nth_error syms middle with
        | None => None
        | Some s =>
            if addr <? s_value s then search syms addr fuel left middle
            else if s_value s <? addr then search syms addr fuel middle right
            else Some middle
        end
      else Some left
  end.
(* qtdis.c:148-175, ascii.c:78-103 *)
Definition symfind (syms : list sym) (addr : N) : found :=
  match nth_error syms 0, nth_error syms (length syms - 1) with
  | Some first, Some last =>
      if (addr <? s_value first) || (s_value last <? addr) then Null
      else
        match search syms addr (length syms) 0 (length syms) with
        | None => Oob
        | Some i => match nth_error syms i with None => Oob | Some s => Found s end
        end
  | _, _ => Null
  end.

(* ascii.c:18-23 *)
Record sym_table := mk_st { st_syms : list sym; st_base : N; st_offset : N }.
(* ascii.c:61-72; [nearest] is None until found is true *)
Fixpoint nearest_table (ts : list sym_table) (addr : N) (nearest : option sym_table) : option sym_table :=
  match ts with
  | [] => nearest
  | t :: ts =>
      if addr <? st_base t then nearest_table ts addr nearest
      else
        let n := match nearest with None => t | Some n => n end in
        nearest_table ts addr (Some (if st_base n <? st_base t then t else n))
  end.
(* ascii.c:51-103: the result and base_offset *)
Definition symfind_ascii (ts : list sym_table) (addr : N) : found * N :=
  match nearest_table ts addr None with
  | None => (Null, 0)
  | Some t => (symfind (st_syms t) (sub64 addr (st_offset t)), st_offset t)
  end.

(** What is printed for an address: the address alone, or with symbol and
    offset. *)
Inductive text := Plain (vma : N) | Symbolic (vma name offset : N) | Undefined.
(* qtdis.c:196-215, without -q *)
Definition print_address (syms : list sym) (vma : N) : text :=
  match symfind syms vma with
  | Oob => Undefined
  | Null => Plain vma
  | Found s => Symbolic vma (s_name s) (sub64 vma (s_value s))
  end.
(* ascii.c:172-185 *)
Definition print_address_ascii (ts : list sym_table) (vma : N) : text :=
  match symfind_ascii ts vma with
  | (Oob, _) => Undefined
  | (Null, _) => Plain vma
  | (Found s, base) => Symbolic vma (s_name s) (sub64 (sub64 vma base) (s_value s))
  end.

(** A line of /proc/pid/maps: start address, whether it is executable, and the
    file name, missing for anonymous memory. *)
Record map_line := mk_line { m_start : N; m_exec : bool; m_file : option N }.
(** Reading the map: the tables; a write behind the array; a use of the name
    buffer that no line has filled in this round. *)
Inductive maps := Tables (ts : list sym_table) | Overrun | Unset.
(* ascii.c:16 *)
Definition MAX_SYMS : nat := 256.
Section MAPS.
  (** [table f]: the symbols of a file that libbfd can read (ascii.c:105-121). *)
  Variable table : N -> option (list sym).
  (* ascii.c:105-129 *)
  Definition syminit (ts : list sym_table) (file base offset : N) : maps :=
    match table file with
    | None => Tables ts
    | Some syms =>
        if Nat.ltb (length ts) MAX_SYMS then Tables (ts ++ [mk_st syms base offset]) else Overrun
    end.
  (* ascii.c:144-167 *)
  Fixpoint read_maps (ls : list map_line) (first : bool) (ts : list sym_table) : maps :=
    match ls with
    | [] => Tables ts
    | l :: ls =>
        if m_exec l then
          match m_file l with
          | None => Unset
          | Some f =>
              match syminit ts f (m_start l) (if first then 0 else m_start l) with
              | Tables ts => read_maps ls false ts
              | o => o
              end
          end
        else read_maps ls first ts
    end.
  Definition initialise_mem_map (ls : list map_line) : maps := read_maps ls true [].
End MAPS.
