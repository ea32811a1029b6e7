(** C89: copying and clearing a hash table, and walking back. *)
Require Import NArith List Bool Permutation.
Require Import Verif.Word Verif.Htable_Model Verif.Htable_Spec Verif.Htcopy_Model Verif.Htcopy_Proofs.
Require Verif.Htable_Props.
Import ListNotations.
Local Open Scope N_scope.

(** After any history the copy holds the same pointers, and any further history
    has the same results in the copy as in the original. *)
Theorem C89_copy : forall rehash t os os2 h0, 1 <= t <= 63 ->
  (h0 = ht_init \/ exists expect, h0 = fst (ht_init_sized true expect)) ->
  Forall (fun o => top_is t (op_ptr o)) (os ++ os2) -> N.of_nat (length (os ++ os2)) <= 805306368 ->
  exists h rs c d, run_ops rehash os h0 = HtOk (h, rs) /\ explains os rs [] c /\
    ht_copy true h = HtOk (Some d) /\ shows rehash d c /\
    exists h' d' rs2 c', run_ops rehash os2 h = HtOk (h', rs2) /\ run_ops rehash os2 d = HtOk (d', rs2) /\
      explains os2 rs2 c c' /\ shows rehash h' c' /\ shows rehash d' c'.
Proof. exact copied. Qed.
Print Assumptions C89_copy.

(** A cleared table is empty and can be used again. *)
Theorem C89_clear : forall rehash t os h, 1 <= t <= 63 ->
  Forall (fun o => top_is t (op_ptr o)) os -> N.of_nat (length os) <= 805306368 ->
  shows rehash (ht_clear h) [] /\
  exists h' rs c, run_ops rehash os (ht_clear h) = HtOk (h', rs) /\ explains os rs [] c /\ shows rehash h' c.
Proof. exact cleared. Qed.
Print Assumptions C89_clear.

(** Calls of htable_first and htable_next return the elements in order;
    htable_prev then returns those before the last one, in reverse, then NULL. *)
Theorem C89_prev : forall h l n j, iterate h = HtOk l -> (n <= length l)%nat ->
  exists o o', firsts n h = HtOk (o, map (nth_error l) (seq 0 (S n))) /\
    prevs j h o = HtOk (o', map (fun i => if Nat.ltb i n then nth_error l (n - 1 - i) else None) (seq 0 j)).
Proof. exact back. Qed.
Print Assumptions C89_prev.

Example C89_ex : match run_ops Htable_Props.ex_hash Htable_Props.ex ht_init with
  | HtOk (h, rs) => iterate h = HtOk [0x10a0; 0x10c0; 0x1070; 0x1091; 0x10b0]
      /\ firsts 2 h = HtOk (2, [Some 0x10a0; Some 0x10c0; Some 0x1070])
      /\ prevs 3 h 2 = HtOk (0, [Some 0x10c0; Some 0x10a0; None])
      /\ match firsts 5 h with
         | HtOk (o, r) => (o, r) = (8, [Some 0x10a0; Some 0x10c0; Some 0x1070; Some 0x1091; Some 0x10b0; None])
             /\ (exists o', prevs 2 h o = HtOk (o', [Some 0x10b0; Some 0x1091]))
         | HtErr _ => False
         end
      /\ ht_copy true h = HtOk (Some h)
  | HtErr _ => False
  end.
Proof. vm_compute. repeat split; try reflexivity. eexists. reflexivity. Qed.
Example C89_ex_empty : ht_copy true ht_init = HtOk (Some copy0) /\ iterate copy0 = HtOk [].
Proof. vm_compute. split; reflexivity. Qed.

(** Going back after htable_next was called once more at the end reads outside the table. *)
Theorem C89_past_the_end_refuted : ~ forall h l n, iterate h = HtOk l ->
  exists o r s, firsts n h = HtOk (o, r) /\ prevs 1 h o = HtOk s.
Proof.
  intro H. destruct (H ht_init [] 1%nat eq_refl) as (o & r & s & A & B). vm_compute in A. injection A as <- <-. vm_compute in B. discriminate B.
Qed.
Print Assumptions C89_past_the_end_refuted.
(** Copying a table whose reserved size could not be allocated reads outside it. *)
Theorem C89_failed_init_refuted : ~ forall expect, exists d, ht_copy true (fst (ht_init_sized false expect)) = HtOk d.
Proof. intro H. destruct (H 1) as (d & E). vm_compute in E. discriminate E. Qed.
Print Assumptions C89_failed_init_refuted.
