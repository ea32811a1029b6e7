(** Examples and counterexamples for C61. *)
Require Import Arith NArith List Bool Lia ZifyBool ZifyN ZifyNat.
Require Import Verif.Word Verif.Codec_Types Verif.Writer_Model Verif.Reader_Model Verif.Codec_Spec.
Require Import Verif.Qtdis_Model Verif.Qtdis_Spec.
Import ListNotations.
Local Open Scope N_scope.

Definition ex_rec (insn addr : N) (ra data : option N) (branch : bool) : qrec :=
  let v o := match o with Some _ => true | None => false end in
  let g (o : option N) := match o with Some x => x | None => 0 end in
  mk_qrec insn addr (v ra) (g ra) (v ra) (if v ra then 16 else 0) (v data) (g data) false 0 false 0 branch false
    false 0 false 0 zero_radix zero_radix.
Definition ex_bytes (rs : list qrec) : list N := match write_trace 0 rs with inr b => b | inl _ => [] end.
Definition plain_options : options := mk_options 0 false false.
(** nop, prefixed load, branch, prefixed load *)
Definition ex_trace : list qrec :=
  [ex_rec 0x60000000 0x10000 (Some 0x2350000) None false;
   ex_rec 0x04100000 0x10004 (Some 0x2350004) None false;
   ex_rec 0xe4610008 0x10008 (Some 0x2350008) (Some 0x500008) false;
   ex_rec 0x48001ff4 0x1000c (Some 0x235000c) None true;
   ex_rec 0x04100000 0x12000 (Some 0x2352000) None false;
   ex_rec 0xe4810010 0x12004 (Some 0x2352004) (Some 0x500010) false;
   ex_rec 0xe8610008 0x12008 (Some 0x2352008) (Some 0x500018) false].
Definition ex_no_prefix : list qrec :=
  [ex_rec 0x60000000 0x10000 (Some 0x2350000) None false;
   ex_rec 0x48000ff8 0x10004 (Some 0x2350004) None true;
   ex_rec 0xe8610008 0x30000 (Some 0x7770000) (Some 0x500018) false].

(** The words of an instruction *)
Definition both (i : rrec * option rrec) : list N :=
  word (fst i) :: match snd i with Some r2 => [word r2] | None => [] end.
Lemma suffix_wrong : ~ forall bytes slack l, (4 <= length slack)%nat ->
  read_trace false false slack bytes = (l, EndFalse) -> whole l = true ->
  map snd (lines (fst (read_qt plain_options slack bytes))) = map both (insns l).
Proof.
  intros H. specialize (H (ex_bytes ex_trace) [0; 0; 0; 0] (fst (read_trace false false [0; 0; 0; 0] (ex_bytes ex_trace)))
    (le_n _)).
  assert (A : read_trace false false [0; 0; 0; 0] (ex_bytes ex_trace)
    = (fst (read_trace false false [0; 0; 0; 0] (ex_bytes ex_trace)), EndFalse)) by (vm_compute; reflexivity).
  specialize (H A). clear A.
  assert (W : whole (fst (read_trace false false [0; 0; 0; 0] (ex_bytes ex_trace))) = true) by (vm_compute; reflexivity).
  specialize (H W). clear W.
  assert (L : map snd (lines (fst (read_qt plain_options [0; 0; 0; 0] (ex_bytes ex_trace))))
    = [[0x60000000]; [0x04100000; 0]; [0x48001ff4]; [0x04100000; 0xe4610008]; [0xe8610008]]) by (vm_compute; reflexivity).
  assert (R : map both (insns (fst (read_trace false false [0; 0; 0; 0] (ex_bytes ex_trace))))
    = [[0x60000000]; [0x04100000; 0xe4610008]; [0x48001ff4]; [0x04100000; 0xe4810010]; [0xe8610008]]) by (vm_compute; reflexivity).
  rewrite L, R in H. discriminate H.
Qed.

(** Concatenated traces *)
Lemma second_header : ~ forall bytes slack l, (4 <= length slack)%nat ->
  read_trace false false slack bytes = (l, EndFalse) -> whole l = true ->
  map fst (lines (fst (read_qt plain_options slack bytes))) = map (fun i => q_insn_addr (o_q (fst i))) (insns l).
Proof.
  intros H. set (b := ex_bytes ex_no_prefix ++ ex_bytes ex_no_prefix).
  specialize (H b [0; 0; 0; 0] (fst (read_trace false false [0; 0; 0; 0] b)) (le_n _)).
  assert (A : read_trace false false [0; 0; 0; 0] b
    = (fst (read_trace false false [0; 0; 0; 0] b), EndFalse)) by (vm_compute; reflexivity).
  specialize (H A). clear A.
  assert (W : whole (fst (read_trace false false [0; 0; 0; 0] b)) = true) by (vm_compute; reflexivity).
  specialize (H W). clear W.
  assert (L : map fst (lines (fst (read_qt plain_options [0; 0; 0; 0] b)))
    = [0x10000; 0x10004; 0x30000; 0x30004; 0x10004; 0x30000]) by (vm_compute; reflexivity).
  assert (R : map (fun i => q_insn_addr (o_q (fst i))) (insns (fst (read_trace false false [0; 0; 0; 0] b)))
    = [0x10000; 0x10004; 0x30000; 0x10000; 0x10004; 0x30000]) by (vm_compute; reflexivity).
  rewrite L, R in H. discriminate H.
Qed.

(** -d 1: real addresses of instructions *)
Lemma fetch_wrong : ~ forall bytes slack l x, (4 <= length slack)%nat ->
  read_trace false false slack bytes = (l, EndFalse) -> whole l = true ->
  read_qt (mk_options 1 false false) slack bytes = (x, QDone) ->
  Forall2 (fun f i => match snd (fst f) with
                      | Some ra => q_insn_ra_valid (o_q (fst i)) = true /\ ra / 2 ^ 16 = q_insn_ra (o_q (fst i)) / 2 ^ 16
                      | None => True
                      end) (fetches x) (insns l).
Proof.
  intros H. set (b := ex_bytes ex_no_prefix).
  specialize (H b [0; 0; 0; 0] (fst (read_trace false false [0; 0; 0; 0] b)) (fst (read_qt (mk_options 1 false false) [0; 0; 0; 0] b)) (le_n _)).
  assert (A : read_trace false false [0; 0; 0; 0] b
    = (fst (read_trace false false [0; 0; 0; 0] b), EndFalse)) by (vm_compute; reflexivity).
  specialize (H A). clear A.
  assert (W : whole (fst (read_trace false false [0; 0; 0; 0] b)) = true) by (vm_compute; reflexivity).
  specialize (H W). clear W.
  assert (A : read_qt (mk_options 1 false false) [0; 0; 0; 0] b
    = (fst (read_qt (mk_options 1 false false) [0; 0; 0; 0] b), QDone)) by (vm_compute; reflexivity).
  specialize (H A). clear A.
  assert (L : fetches (fst (read_qt (mk_options 1 false false) [0; 0; 0; 0] b))
    = [(0x10000, None, None); (0x10004, Some 0x777000, Some 0x10000); (0x30000, None, None)]) by (vm_compute; reflexivity).
  assert (R : map (fun i => q_insn_ra (o_q (fst i))) (insns (fst (read_trace false false [0; 0; 0; 0] b)))
    = [0x2350000; 0x2350004; 0x7770000]) by (vm_compute; reflexivity).
  rewrite L in H. clear L. revert R H. generalize (insns (fst (read_trace false false [0; 0; 0; 0] b))). intros l R H.
  destruct l as [|i1 [|i2 l]]; [discriminate R|discriminate R|].
  inversion H as [|? ? ? ? _ H']. inversion H' as [|? ? ? ? E _]. cbn [map] in R. injection R as _ R _.
  cbn [fst snd] in E. destruct E as [_ E]. rewrite R in E. vm_compute in E. discriminate E.
Qed.
