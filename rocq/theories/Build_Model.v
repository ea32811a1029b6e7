(** Model of qtbuild/qtbuild.c: build.  Sections are whole numbers of words
    and entries, in the byte order of the host; libbfd gives their contents.
    Section sizes are below 2^64, so text addresses do not wrap. *)
Require Import NArith List Bool.
Require Import Verif.Word Verif.Codec_Types Verif.Branch_Model Verif.Storage_Model.
Import ListNotations.
Local Open Scope N_scope.

(* qtbuild.c:57-66 *)
Record insn_map := mk_im { im_text : N; im_type : N; im_dyn : N }.
Record ldst_map := mk_lm { lm_text : N; lm_addr : N }.
(* qtbuild.c:53-55 *)
Definition BRANCH_TYPE_ABS : N := 0.
Definition BRANCH_TYPE_REL : N := 1.
Definition BRANCH_TYPE_INS : N := 2.

(** Why the program gave up *)
Inductive bexit := NoStart | NoLdst | NoBranch | BadType | BadBranch.
(** The records handed to the writer; exit(1); a failed assertion in
    is_storage_insn; a read behind the end of ldstmap_buf. *)
Inductive bres := BOk (rs : list qrec) | BExit (e : bexit) | BAbort | BOob.

Definition bcons (r : qrec) (b : bres) : bres :=
  match b with BOk rs => BOk (r :: rs) | _ => b end.

Section BUILD.
  (** is_storage_insn is called without registers and uses an uninitialised
      array in their place. *)
  Variable gprs : N -> N.

  (* qtbuild.c:157-159, 169-173, 179-180: the fields that are set *)
  Definition record (insn addr : N) (data : option N) (branch cond : bool) : qrec :=
    mk_qrec insn addr false 0 false 0
      (match data with Some _ => true | None => false end)
      (match data with Some d => d | None => 0 end)
      false 0 false 0 branch cond false 0 false 0 zero_radix zero_radix.

  (* qtbuild.c:182-218: the new daddr and instruction *)
  Definition follow (e : insn_map) (insn daddr : N) : bexit + (N * N) :=
    let go (d : N) :=
      let insn' := set_branch_target insn daddr d in
      if insn' =? 0 then inl BadBranch else inr (d, insn') in
    if im_type e =? BRANCH_TYPE_ABS then go (im_dyn e)
    else if im_type e =? BRANCH_TYPE_REL then go (add64 daddr (im_dyn e))
    else if im_type e =? BRANCH_TYPE_INS then
      if has_branch_target insn then go (branch_target insn daddr) else inl NoBranch
    else inl BadType.

  (* qtbuild.c:153-236; the terminating entry, which never matches, is the
     empty list *)
  Fixpoint build_loop (ws : list N) (taddr daddr : N) (im : list insn_map) (lm : list ldst_map) : bres :=
    match ws with
    | [] => BOk []
    | insn :: ws =>
        let cont (data : option N) (lm : list ldst_map) : bres :=
          let rest insn' daddr' im' :=
            bcons (record insn' daddr data (is_branch insn) (is_conditional_branch insn))
                  (build_loop ws (taddr + 4) daddr' im' lm) in
          match im with
          | e :: im' =>
              if im_text e =? taddr + 4 then
                match follow e insn daddr with
                | inl x => BExit x
                | inr (daddr', insn') => rest insn' daddr' im'
                end
              else rest insn (add64 daddr 4) im
          | [] => rest insn (add64 daddr 4) im
          end in
        match is_storage_insn insn gprs with
        | SAbort => BAbort
        | SNo => cont None lm
        | SYes _ _ =>
            match lm with
            | [] => BOob
            | m :: lm => if lm_text m =? taddr + 4 then cont (Some (lm_addr m)) lm else BExit NoLdst
            end
        end
    end.

  (* qtbuild.c:129-151 *)
  Definition build (text : list N) (im : list insn_map) (lm : list ldst_map) : bres :=
    match im with
    | [] => BExit NoStart
    | e :: im =>
        if negb (im_text e =? 0) || negb (im_type e =? BRANCH_TYPE_ABS) then BExit NoStart
        else
          match im with
          | e2 :: im2 =>
              if im_text e2 =? 0 then
                if negb (im_type e2 =? BRANCH_TYPE_ABS) then BExit NoStart
                else build_loop text 0 (im_dyn e2) im2 lm
              else build_loop text 0 (im_dyn e) im lm
          | [] => build_loop text 0 (im_dyn e) im lm
          end
    end.
End BUILD.
