(** What a symbol lookup should give, without a search. *)
Require Import NArith List Bool Permutation Sorted.
Require Import Verif.Sym_Model.
Import ListNotations.
Local Open Scope N_scope.

Definition ascending (l : list sym) : Prop := StronglySorted (fun a b => s_value a <= s_value b) l.
(** A sorting function *)
Definition sorts (qsort : list sym -> list sym) : Prop :=
  forall l, Permutation l (qsort l) /\ ascending (qsort l).

(** [s] is a symbol of [l] with the greatest value not above [addr]. *)
Definition nearest_below (l : list sym) (addr : N) (s : sym) : Prop :=
  In s l /\ s_value s <= addr /\
  forall s', In s' l -> s_value s' <= addr -> s_value s' <= s_value s.
(** There are symbols on both sides of (or at) the address. *)
Definition enclosed (l : list sym) (addr : N) : Prop :=
  (exists s, In s l /\ s_value s <= addr) /\ (exists s, In s l /\ addr <= s_value s).

Definition is_nil {A} (l : list A) : bool := match l with [] => true | _ => false end.
(** The symbols qtdis looks at. *)
Definition considered (start : N) (normal dyn : list sym) (s : sym) : Prop :=
  In s (if is_nil normal then dyn else normal) /\
  (start = 2 ^ 64 - 2 ^ 62 -> 2 ^ 64 - 2 ^ 62 <= s_value s).

(** The table responsible for an address: of those that start at or below it
    the one starting last, the earliest in the list if there are several. *)
Definition responsible (ts : list sym_table) (addr : N) (t : sym_table) : Prop :=
  exists before after, ts = before ++ t :: after /\ st_base t <= addr /\
    (forall t', In t' before -> st_base t' <= addr -> st_base t' < st_base t) /\
    (forall t', In t' after -> st_base t' <= addr -> st_base t' <= st_base t).

(** The tables for a memory map: one per executable mapping of a readable
    file; the first executable mapping is not relocated. *)
Definition exec_lines (ls : list map_line) : list map_line := filter m_exec ls.
Definition table_of (table : N -> option (list sym)) (i : nat) (l : map_line) : list sym_table :=
  match m_file l with
  | None => []
  | Some f =>
      match table f with
      | None => []
      | Some syms => [mk_st syms (m_start l) (match i with O => 0 | _ => m_start l end)]
      end
  end.
Fixpoint tables_from (table : N -> option (list sym)) (i : nat) (ls : list map_line) : list sym_table :=
  match ls with
  | [] => []
  | l :: ls => table_of table i l ++ tables_from table (S i) ls
  end.
