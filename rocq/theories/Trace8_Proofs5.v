(** C55: what goes wrong outside its conditions. *)
Require Import NArith ZArith List Bool.
Require Import Verif.Word Verif.Codec_Types Verif.HtmBits_Spec Verif.Htm_Model Verif.Trace_Spec.
Require Verif.Tlb_Model Verif.Tlb_Spec Verif.Tlb_Props.
Import ListNotations.
Local Open Scope N_scope.

Definition quiet (_ : Z) : list N := repeat 0 8.
Definition no_junk (_ : Z) : qrec := zero_qrec.
Definition plain (raw : N) : insn8 := mk_insn8 raw raw false 0 0 false None None None None.
Definition one_insn (i : insn8) : hres hst :=
  htm_decode Tlb_Props.isort quiet no_junk true (bytes_of (insn_words i)) true.
Definition load_at (dea : N) : insn8 :=
  mk_insn8 0xE8640008 0xE8640008 false 0 0 false None None (Some ([], dea)) None.
Definition pair_of (branch : bool) : list item8 :=
  [IInsn (if branch then mk_insn8 (iform 0x400 false false) (p8_i_rel false false 0x400 false 0x1000) true 0 0 false
                           (Some ([], 0x1000)) None None None
          else mk_insn8 0x60000000 0x60000000 false 0 0 false (Some ([], 0x1000)) None None None);
   IInsn (mk_insn8 0x60000000 0x60000000 false 0 0 false (Some ([], 0x2004)) None None None)].

Lemma opcode_lost : ~ forall raw s, 0 < raw < 2 ^ 32 -> field 32 raw 0 5 <> 19 ->
  one_insn (plain raw) = HOk s -> h_log s = [(4, raw)].
Proof.
  intros H. destruct (one_insn (plain 0xACEFF800)) as [s|e] eqn:E.
  - specialize (H 0xACEFF800 s ltac:(split; reflexivity) ltac:(discriminate) E).
    assert (L : match one_insn (plain 0xACEFF800) with HOk s => h_log s | HErr _ => [] end = []) by (vm_compute; reflexivity).
    rewrite E in L. rewrite L in H. discriminate.
  - assert (L : match one_insn (plain 0xACEFF800) with HOk s => true | HErr _ => false end = true) by (vm_compute; reflexivity).
    rewrite E in L. discriminate.
Qed.
Lemma data_lost : ~ forall dea s, dea < 2 ^ 64 -> field 64 dea 0 19 <> 0xACEFF ->
  one_insn (load_at dea) = HOk s ->
  Forall2 tells [EInsn 0xE8640008 4 None (Some dea) None] (h_out s).
Proof.
  intros H. pose (d := 0x100000000ABCDE00). destruct (one_insn (load_at d)) as [s|e] eqn:E.
  - specialize (H d s eq_refl ltac:(discriminate) E).
    assert (L : match one_insn (load_at d) with HOk s => map (fun r => match r with RInsn q => q_data_addr_valid q | _ => true end) (h_out s) | HErr _ => [] end = [false]) by (vm_compute; reflexivity).
    rewrite E in L. inversion H as [|? r ? l T F E1 E2]. rewrite <- E2 in L. destruct r as [| | | | | |q]; try contradiction.
    destruct T as (_ & _ & _ & _ & (V & _) & _). cbn in L. rewrite V in L. discriminate.
  - assert (L : match one_insn (load_at d) with HOk s => true | HErr _ => false end = true) by (vm_compute; reflexivity).
    rewrite E in L. discriminate.
Qed.
Lemma branch_junk : ~ forall junk s,
  htm_decode Tlb_Props.isort quiet junk true (bytes_of (insn_words (plain 0x60000000))) true = HOk s ->
  exists q, h_out s = [RInsn q] /\ q_branch q = false.
Proof.
  intros H.
  pose (j := fun _ : Z => mk_qrec 0 0 false 0 false 0 false 0 false 0 false 0 true false false 0 false 0 (q_radix_insn zero_qrec) (q_radix_data zero_qrec)).
  destruct (htm_decode Tlb_Props.isort quiet j true (bytes_of (insn_words (plain 0x60000000))) true) as [s|e] eqn:E.
  - destruct (H j s E) as (q & O & B).
    assert (L : match htm_decode Tlb_Props.isort quiet j true (bytes_of (insn_words (plain 0x60000000))) true with HOk s => map (fun r => match r with RInsn q => q_branch q | _ => false end) (h_out s) | HErr _ => [] end = [true]) by (vm_compute; reflexivity).
    rewrite E, O in L. cbn in L. rewrite B in L. discriminate.
  - assert (L : match htm_decode Tlb_Props.isort quiet j true (bytes_of (insn_words (plain 0x60000000))) true with HOk s => true | HErr _ => false end = true) by (vm_compute; reflexivity).
    rewrite E in L. discriminate.
Qed.
Lemma jumps_counted : forall branch,
  exists s, htm_decode Tlb_Props.isort quiet no_junk true (bytes_of (flat_map words8 (pair_of branch))) true = HOk s
    /\ h_stat s BranchesAfterNonBranches = (if branch then 1 else 0).
Proof.
  intros branch.
  assert (L : match htm_decode Tlb_Props.isort quiet no_junk true (bytes_of (flat_map words8 (pair_of branch))) true with
              | HOk s => h_stat s BranchesAfterNonBranches | HErr _ => 2 end = (if branch then 1 else 0))
    by (destruct branch; vm_compute; reflexivity).
  destruct (htm_decode _ _ _ _ _ _) as [s|e]; [exists s; split; [reflexivity|exact L]|].
  destruct branch; discriminate.
Qed.
