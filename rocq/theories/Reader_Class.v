(** Documented classification of branch instruction words, and the meaning of
    the tlbie annotation, in terms of ISA fields. *)
Require Import NArith List Bool.
Require Import Verif.Branch_Spec Verif.Reader_Spec Verif.Reader_Model.
Import ListNotations.
Local Open Scope N_scope.

Definition link_class (w : N) : btype := if isa_LK w =? 1 then CALL else BRANCH.

(** (direct?, class) *)
Definition branch_class (w : N) : bool * btype :=
  if w =? ADDRESSING_IDIOM then (true, ADDRESSING)
  else
    let op := isa_opcd w in
    let xo := isa_XO w in
    if (op =? 18) || (op =? 16) then (true, link_class w)
    else if op =? 17 then (true, SYSTEM_CALL_EXCEPTION)
    else if op =? 19 then
      if xo =? 16 then (true, if isa_BH w =? 0 then RETURN else link_class w)
      else if (xo =? 528) || (xo =? 560) then (false, link_class w)
      else if (xo =? 50) || (xo =? 18) || (xo =? 274) || (xo =? 82) then (true, EXCEPTION_RETURN)
      else (true, ASYNC_EXCEPTION)
    else (true, ASYNC_EXCEPTION).

Definition with_class (c : bool * btype) (r : rrec) : rrec :=
  mk_rrec (o_q r) (o_taken r) (fst c) (snd c) (o_regs r) (o_tlbie r) (o_node_valid r)
          (o_node r) (o_term_code r) (o_term_node r) (o_next_addr r).
Definition with_tlbie (t : tlbie) (r : rrec) : rrec :=
  mk_rrec (o_q r) (o_taken r) (o_direct r) (o_btype r) (o_regs r) t (o_node_valid r)
          (o_node r) (o_term_code r) (o_term_node r) (o_next_addr r).

(** tlbie is XO 306, tlbiel XO 274. *)
Definition is_tlbie (w : N) : Prop := isa_opcd w = 31 /\ (isa_XO w = 306 \/ isa_XO w = 274).
Definition is_tlbiel (w : N) : bool := isa_XO w =? 274.

(** The operands as the ISA defines them; [epn_bits] low bits of the page
    number are kept. *)
Definition isa_tlbie (w rb rs lpid : N) (epn_bits : N) : tlbie :=
  let is := rb_IS rb in
  mk_tlbie true (is_tlbiel w) (isa_RIC w) (isa_PRS w) (isa_R w) is
    (if is_tlbiel w && negb (is =? 0) then rb_SET rb else 0)
    (if is =? 0 then match ap_shift (rb_AP rb) with Some s => s | None => 0 end else 0)
    (if is =? 0 then rb_EPN rb mod 2 ^ epn_bits * 2 ^ 12 else 0)
    (if is_tlbiel w then lpid else rs mod 2 ^ 32)
    ((rs / 2 ^ 32) mod 2 ^ 32).
