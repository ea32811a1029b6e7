(** Proofs for C68: prefixed instructions in hardware traces. *)
Require Import NArith ZArith List Bool.
Require Import Verif.Word Verif.Codec_Types Verif.Htm_Model Verif.Stats_Model Verif.Trace_Spec Verif.Trace10_Spec.
Require Import Verif.Trace8_Proofs5 Verif.Trace10_Proofs7 Verif.Trace10_Props Verif.Convert_Model Verif.Convert_Spec Verif.Convert_Proofs4 Verif.Convert_Props.
Require Import Verif.Tools_Model Verif.Tools_Spec.
Require Verif.Tlb_Props.
Import ListNotations.
Local Open Scope N_scope.

Definition file_of (r : cres) : list N := match r with COk f => f | _ => [] end.
Definition unknowns (r : option (option stt * option mix)) : option N :=
  match r with Some (_, Some x) => Some (x_unknown x) | _ => None end.
Lemma prefix_differs : ~ forall items file, (Z.of_nat (length (file10 true start10 items)) < 2 ^ 30)%Z ->
  trace10_ok true start10 items -> Forall worded10 items -> Forall whole10 items -> Forall one_data10 items ->
  conv (file10 true start10 items) = COk file ->
  qtdis_stats (repeat 0 4) file
  = htmdecoder_stats Tlb_Props.isort quiet no_junk (bytes_of (file10 true start10 items)) true.
Proof.
  intros H.
  assert (E : exists f, conv (file10 true start10 ex10) = COk f) by (eexists; vm_compute; reflexivity).
  destruct E as [f E].
  assert (A : unknowns (qtdis_stats (repeat 0 4) (file_of (conv (file10 true start10 ex10)))) = Some 1) by (vm_compute; reflexivity).
  assert (B : unknowns (htmdecoder_stats Tlb_Props.isort quiet no_junk (bytes_of (file10 true start10 ex10)) true) = Some 0)
    by (vm_compute; reflexivity).
  rewrite <- (H ex10 f) in B; [|vm_compute; reflexivity|exact C56_ex_ok|exact (proj2 (proj2 C57_ex_quiet))| | |exact E].
  - rewrite E in A. cbn [file_of] in A. rewrite A in B. discriminate B.
  - repeat constructor; vm_compute; discriminate || reflexivity || auto.
  - repeat constructor; vm_compute; discriminate || reflexivity || auto.
Qed.
