(** What the trace built from annotated code should be: entries of the maps are
    looked up by position, branches follow the ISA. *)
Require Import NArith List Bool Sorted.
Require Import Verif.Codec_Types Verif.Branch_Spec Verif.Storage_Model Verif.Storage_Spec Verif.Build_Model.
Import ListNotations.
Local Open Scope N_scope.

(** Strictly ascending positions on word boundaries behind the start. *)
Definition ordered (im : list insn_map) : Prop :=
  StronglySorted (fun a b => im_text a < im_text b) im /\
  Forall (fun e => 0 < im_text e /\ im_text e mod 4 = 0) im.
Definition sized_im (im : list insn_map) : Prop := Forall (fun e => im_dyn e < 2 ^ 64) im.

Definition entry_at (im : list insn_map) (pos : N) : option insn_map :=
  find (fun e => im_text e =? pos) im.
(** The address after word [w] at [a]; the entry is placed behind the word. *)
Definition successor_addr (im : list insn_map) (w pos a : N) : N :=
  match entry_at im pos with
  | None => (a + 4) mod 2 ^ 64
  | Some e =>
      match im_type e with
      | 0 => im_dyn e
      | 1 => (a + im_dyn e) mod 2 ^ 64
      | _ => match isa_branch_target w a with Some t => t | None => 0 end
      end
  end.

(** Whether the word is a storage access, for any registers. *)
Definition accesses (w : N) : bool :=
  match isa_answer w (fun _ => 0) with SYes _ _ => true | _ => false end.
Definition unsupported (w : N) : bool :=
  match isa_answer w (fun _ => 0) with SAbort => true | _ => false end.

(** The word with another target: all other fields kept. *)
Definition retargeted (w w' a next : N) : Prop :=
  w' < 2 ^ 32 /\ isa_branch_target w' a = Some next /\
  isa_opcd w' = isa_opcd w /\ isa_AA w' = isa_AA w /\ isa_LK w' = isa_LK w /\
  (isa_opcd w = 16 -> isa_BO w' = isa_BO w /\ isa_BI w' = isa_BI w).

Definition direct (w : N) : Prop := isa_opcd w = 18 \/ isa_opcd w = 16.

(** The record for word [w], placed before position [pos]. *)
Record faithful (im : list insn_map) (lm : list ldst_map) (pos w a next : N) (r : qrec) : Prop := mk_faithful {
  f_addr : q_insn_addr r = a;
  f_data : q_data_addr_valid r = accesses w;
  f_daddr : accesses w = true -> In (mk_lm pos (q_data_addr r)) lm;
  f_plain : entry_at im pos = None -> q_insn r = w;
  f_other : ~ direct w -> q_insn r = w;
  f_taken : entry_at im pos <> None -> direct w -> retargeted w (q_insn r) a next;
  f_branch : q_branch r = true <-> isa_bo_branch w \/ isa_always_branch w;
  f_cond : q_cond r = true <-> isa_bo_branch w /\ ~ isa_BO_always w;
  f_rest : q_insn_ra_valid r = false /\ q_insn_ps_valid r = false /\ q_data_ra_valid r = false /\
    q_data_ps_valid r = false /\ q_ginsn_ps_valid r = false /\ q_gdata_ps_valid r = false /\
    q_radix_insn r = zero_radix /\ q_radix_data r = zero_radix }.

Fixpoint traced (im : list insn_map) (lm : list ldst_map) (pos a : N) (ws : list N) (rs : list qrec) : Prop :=
  match ws, rs with
  | [], [] => True
  | w :: ws, r :: rs =>
      let next := successor_addr im w (pos + 4) a in
      faithful im lm (pos + 4) w a next r /\ traced im lm (pos + 4) next ws rs
  | _, _ => False
  end.

(** Targets taken from the instruction are relative ones, and addresses are on
    word boundaries. *)
Fixpoint relative_only (im : list insn_map) (pos : N) (ws : list N) : Prop :=
  match ws with
  | [] => True
  | w :: ws =>
      (match entry_at im (pos + 4) with
       | Some e => match im_type e with 0 | 1 => im_dyn e mod 4 = 0 | _ => isa_AA w = 0 end
       | None => True
       end) /\ relative_only im (pos + 4) ws
  end.

(** Code and maps that can be built: known words; every access with an entry,
    in order; known entry types; targets taken from instructions that have
    one; displacements in range. *)
Definition fits (w a next : N) : Prop :=
  (isa_opcd w = 18 \/ isa_opcd w = 16 ->
     exists w', w' < 2 ^ 32 /\ isa_opcd w' = isa_opcd w /\ isa_AA w' = isa_AA w /\
                isa_branch_target w' a = Some next) /\ w <> 0.
Fixpoint buildable (im : list insn_map) (lm : list ldst_map) (pos a : N) (ws : list N) : Prop :=
  match ws with
  | [] => True
  | w :: ws =>
      let next := successor_addr im w (pos + 4) a in
      unsupported w = false /\
      (match entry_at im (pos + 4) with
       | Some e => (im_type e = 0 \/ im_type e = 1 \/ im_type e = 2 /\ direct w) /\ fits w a next
       | None => True
       end) /\
      (if accesses w then
         match lm with
         | m :: lm => lm_text m = pos + 4 /\ buildable im lm (pos + 4) next ws
         | [] => False
         end
       else buildable im lm (pos + 4) next ws)
  end.

(** The head of an instruction map: one or two absolute entries at the start. *)
Definition starts_at (im rest : list insn_map) (a : N) : Prop :=
  im = mk_im 0 0 a :: rest \/ exists b, im = mk_im 0 0 b :: mk_im 0 0 a :: rest.
