(** The register dump: proofs of C70. *)
Require Import Arith NArith List Bool Lia ZifyBool ZifyN ZifyNat.
Require Import Verif.Word Verif.Regs_Model Verif.Regs_Spec.
Import ListNotations.
Local Open Scope N_scope.

(** ** Values in the state *)
Definition val (le : bool) (s : state) (r : reg) : N :=
  match r with
  | GPR i => nth i (s_gpr s) 0
  | VR i => nth i (s_vmx s) 0
  | VSCR => u32 (nth 32 (s_vmx s) 0)
  | VRSAVE => u32 (if le then nth 33 (s_vmx s) 0 else N.shiftr (nth 33 (s_vmx s) 0) 96)
  | VSR i => nth i (s_vsx s) 0
  | CTR => s_ctr s
  | LR => s_link s
  | XER => s_xer s
  | CR => u32 (s_ccr s)
  | FPSCR => s_fpscr s
  end.
Definition show (le : bool) (p c : state) (r : reg) : list line :=
  if val le p r =? val le c r then [] else [mk_line r (digits r) (val le c r)].

Lemma flat_map_map {A B C} (f : A -> B) (g : B -> list C) l : flat_map g (List.map f l) = flat_map (fun x => g (f x)) l.
Proof. induction l; cbn; [reflexivity|]. now rewrite IHl. Qed.

Lemma print_show le p c : print_state le p c = flat_map (show le p c) all_regs.
Proof.
  unfold print_state, all_regs. rewrite !flat_map_app, !flat_map_map.
  cbn [flat_map]. rewrite <- !app_assoc, app_nil_r.
  destruct le; reflexivity.
Qed.

Lemma pair128_val le f v : f < 2 ^ 64 -> v < 2 ^ 64 ->
  pair128 le f v = if le then v * 2 ^ 64 + f else f * 2 ^ 64 + v.
Proof.
  assert (G : forall a b, b < 2 ^ 64 -> N.lor (N.shiftl a 64) b = a * 2 ^ 64 + b).
  { intros a b Hb. rewrite <- N.lxor_lor, <- N.add_nocarry_lxor, N.shiftl_mul_pow2; try reflexivity;
    (apply N.bits_inj; intros i; rewrite N.land_spec, N.bits_0; destruct (N.ltb_spec i 64);
     [rewrite N.shiftl_spec_low by assumption; reflexivity|
      rewrite <- (N.mod_small b (2 ^ 64)) by assumption; rewrite N.mod_pow2_bits_high by assumption; apply andb_false_r]). }
  intros Hf Hv. unfold pair128. destruct le; now apply G.
Qed.

Lemma in_all r : In r all_regs ->
  match r with GPR i | VR i | VSR i => (i < 32)%nat | _ => True end.
Proof.
  unfold all_regs. rewrite !in_app_iff, !in_map_iff. intros H.
  destruct r; try exact I;
  repeat match goal with
  | H : _ \/ _ |- _ => destruct H
  | H : exists _, _ |- _ => destruct H
  | H : _ /\ _ |- _ => destruct H
  | H : In _ (seq _ _) |- _ => apply in_seq in H
  | H : GPR _ = GPR _ |- _ => injection H as ->
  | H : VR _ = VR _ |- _ => injection H as ->
  | H : VSR _ = VSR _ |- _ => injection H as ->
  | H : In _ _ |- _ => cbn in H
  end; try discriminate; try contradiction; lia.
Qed.

Lemma val_value le a r : answers a -> In r all_regs -> val le (get_state le a) r = value le a r.
Proof.
  intros (L & G & V & F & X & C & K & Xr & Cc & Vs) I. apply in_all in I.
  destruct r as [i|i| | |i| | | | |]; cbn [val value get_state s_gpr s_vmx s_vsx s_ctr s_link s_xer s_ccr s_fpscr]; try reflexivity.
  - rewrite app_nth1 by lia. reflexivity.
  - rewrite app_nth1 by lia. reflexivity.
  - rewrite app_nth2 by lia. rewrite L. change (33 - 33)%nat with 0%nat. cbn [nth]. unfold vrsave_image, u32, w32.
    destruct le.
    + rewrite N.mul_comm, N.mod_add by discriminate. now apply N.mod_small.
    + rewrite N.shiftr_div_pow2, N.div_add_l by discriminate.
      change (0xa5a5a5a5a5a5a5a5a5a5a5a5 / 2 ^ 96) with 0. rewrite N.add_0_r. now apply N.mod_small.
  - rewrite (nth_indep _ 0 (pair128 le (nth 0 (a_fpr a) 0) (nth 0 (a_vsx a) 0)))
      by (rewrite map_length, seq_length; exact I).
    rewrite (map_nth (fun i => pair128 le (nth i (a_fpr a) 0) (nth i (a_vsx a) 0)) (seq 0 32) 0%nat i).
    rewrite seq_nth by exact I. apply pair128_val; auto.
Qed.

Lemma zero_val le r : val le zero_state r = 0.
Proof.
  destruct r as [i|i| | |i| | | | |]; cbn [val zero_state s_gpr s_vmx s_vsx s_ctr s_link s_xer s_ccr s_fpscr]; try reflexivity.
  - revert i. apply nth_repeat.
  - apply nth_repeat.
  - destruct le; reflexivity.
  - apply nth_repeat.
Qed.
