(** What the kernel's page map says, and histories of lookups. *)
Require Import NArith List Bool.
Require Import Verif.Pagemap_Model.
Import ListNotations.
Local Open Scope N_scope.

(** Documentation/admin-guide/mm/pagemap: bit 63 present, the low bits the
    frame number (48 bits are all a 64-bit address has); frame flags 17 (huge) and 22 (transparent huge). *)
Definition bit (x i : N) : bool := x / 2 ^ i mod 2 =? 1.
Definition asked (k : kernel) (ea : N) : option (N * N) :=
  match pagemap_at k (ea / 2 ^ 16) with
  | Some e =>
      if bit e 63 then
        let frame := e mod 2 ^ 48 in
        match kpageflags_at k frame with
        | Some f => Some (frame * 2 ^ 16, if bit f 17 || bit f 22 then 21 else 16)
        | None => None
        end
      else None
  | None => None
  end.

Record acc := mk_acc { a_ea : N; a_iside : bool; a_kernel : kernel }.
Definition lookup (st : pstate) (a : acc) : pres := ea_to_pa (a_kernel a) st (a_ea a) (a_iside a).
Definition interval (a : acc) : N := if a_iside a then 10000 else 100.

(** The state behind a history of lookups *)
Inductive reached : list acc -> pstate -> Prop :=
| reached_init : reached [] init_state
| reached_none : forall h st a st', reached h st -> lookup st a = PNone st' -> reached (h ++ [a]) st'
| reached_ans : forall h st a st' pa sh, reached h st -> lookup st a = PAns st' pa sh ->
    reached (h ++ [a]) st'.

Definition same_page (sh x y : N) : Prop := x / 2 ^ sh = y / 2 ^ sh.
(** An answer the kernel gave for the same page at most [n] lookups ago *)
Definition recent (h : list acc) (n : N) (ea pa sh : N) : Prop :=
  exists i a, nth_error h i = Some a /\ asked (a_kernel a) (a_ea a) = Some (pa, sh) /\
    same_page sh (a_ea a) ea /\ N.of_nat (length h) - N.of_nat i < n.
