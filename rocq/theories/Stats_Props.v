(** C32, C33, C34 and C52: instruction statistics. *)
Require Import NArith ZArith List Bool Permutation Lia.
Require Import Verif.Word Verif.Stats_Model Verif.Stats_Spec Verif.Stats_Proofs Verif.Stats_Proofs2.
Import ListNotations.
Local Open Scope N_scope.

(** Every counter has the number of its events, whatever the instructions,
    and no table access is out of range. *)
Theorem C32_counters : forall xs, Forall wf xs -> exists s, log_all stt0 xs = Some s /\ rel (rev xs) s.
Proof. exact log_spec. Qed.
Print Assumptions C32_counters.

(** The counters add up. *)
Theorem C32_sums : forall xs s, Forall wf xs -> N.of_nat (length xs) < 2 ^ 64 -> log_all stt0 xs = Some s ->
  t_total s = N.of_nat (length xs)
  /\ t_total s = t_system s + t_opal s + t_user s
  /\ t_user s = t_lib s + t_bin s
  /\ t_excn s = sumN (t_exc s) /\ t_sysn s = sumN (t_sys s)
  /\ t_opcn s = sumN (t_opc s) /\ t_hcn s = sumN (t_hc s)
  /\ t_ctx_mult s <= t_ctx s /\ t_ctx s <= t_system s.
Proof. exact stats_sums. Qed.
Print Assumptions C32_sums.

(** li r0,4; sc (write), then the system call exception, an hcall with
    token 8, a call to OPAL with li r0,1 in its first instruction, two
    context switches. *)
Definition ex : list (N * N) :=
  [(0x10000000, 0x38000004); (0x10000004, 0x44000002); (0xc000000000004c00, 0x60000000);
   (0xc000000000010000, 0x38600008); (0xc000000000010004, 0x44000022);
   (0x30000100, 0x38000001); (0x30000104, 0x60000000);
   (0xc000000000020000, 0x7de042a6); (0xc000000000030000, 0x7de042a6); (0x7fff00000000, 0x60000000)].
Example C32_ex : match log_all stt0 ex with
  | Some s => (t_total s, t_system s, t_opal s, t_user s, t_lib s, t_bin s) = (10, 5, 2, 3, 1, 2)
      /\ nth_error (t_sys s) 4 = Some 1 /\ t_sysn s = 1 /\ nth_error (t_exc s) 0 = Some 1 /\ t_excn s = 1
      /\ nth_error (t_hc s) 2 = Some 1 /\ nth_error (t_opc s) 1 = Some 1 /\ t_opcn s = 1
      /\ (t_ctx s, t_ctx_ea s, t_ctx_mult s) = (2, 0xc000000000020000, 1)
  | None => False
  end.
Proof. vm_compute. repeat split; reflexivity. Qed.
Example C32_ex_wf : Forall wf ex. Proof. repeat constructor. Qed.
(** The mask for context switches fixes the top bit of the register: the same
    instruction with r16 is not counted. *)
Theorem C32_upper_registers_refuted : ~ forall xs s, Forall wf xs -> log_all stt0 xs = Some s ->
  t_ctx s = events (newest (fun x => kernel x && mfspr 32 256 x)) (rev xs) mod 2 ^ 64.
Proof.
  intros H. specialize (H [(0xc000000000020000, 0x7e0042a6)]).
  destruct (log_all stt0 [(0xc000000000020000, 0x7e0042a6)]) as [s|] eqn:E; [|discriminate].
  specialize (H s ltac:(repeat constructor) eq_refl).
  assert (X : option_map t_ctx (log_all stt0 [(0xc000000000020000, 0x7e0042a6)]) = Some 0) by (vm_compute; reflexivity).
  rewrite E in X. injection X as X.
  rewrite X in H. discriminate.
Qed.
Print Assumptions C32_upper_registers_refuted.

(** Idle time is not bounded by system time ... *)
Theorem C33_idle_exceeds_system_refuted : ~ forall xs s, Forall wf xs -> log_all stt0 xs = Some s ->
  t_idle s <= t_system s.
Proof.
  intros H. set (k := 0xc000000000020000).
  set (xs := [(k, 0x7c6c42a6); (k + 4, 0x7ffffb78); (k, 0x7c6c42a6); (k + 4, 0x7ffffb78)]).
  assert (X : option_map (fun s => (t_idle s, t_system s)) (log_all stt0 xs) = Some (7, 4)) by (vm_compute; reflexivity).
  specialize (H xs). destruct (log_all stt0 xs) as [s|]; [|discriminate X].
  assert (W : Forall wf xs) by (unfold xs, k; repeat constructor).
  specialize (H s W eq_refl). injection X as X1 X2. rewrite X1, X2 in H. exact (H eq_refl).
Qed.
Print Assumptions C33_idle_exceeds_system_refuted.
(** ... only by twice the total. *)
Theorem C33_idle_bound : forall xs s, Forall wf xs -> 2 * N.of_nat (length xs) < 2 ^ 64 ->
  log_all stt0 xs = Some s -> t_idle s <= 2 * t_total s.
Proof. exact idle_bound. Qed.
Print Assumptions C33_idle_bound.
Example C33_ex_user_time : (* seven of nine instructions are user code *)
  let k := 0xc000000000020000 in
  match log_all stt0 ([(k, 0x7c6c42a6)] ++ repeat (0x10000000, 0x60000000) 7 ++ [(k, 0x7c6c42a6)]) with
  | Some s => t_idle s = 9 /\ t_system s = 2 /\ t_user s = 7
  | None => False
  end.
Proof. vm_compute. repeat split; reflexivity. Qed.

(** The instruction mix: with the cache and the table of major opcodes every
    instruction goes to the first entry that matches, for every table whose
    masks contain the major opcode.  The last entry is left out. *)
Theorem C34_mix : forall table d insns, Forall covers table -> N.of_nat (length table) < 2 ^ 31 ->
  Forall (fun i => i < 2 ^ 32) insns ->
  exists x, mix_all table d (mix_init table) insns = Some x
  /\ length (x_count x) = length table
  /\ (forall k, (k < length table)%nat -> nth_error (x_count x) k =
        Some (N.of_nat (length (filter (fun i => match first_hit d (removelast table) i with
                                                  | Some j => (k =? j)%nat | None => false end) insns)) mod 2 ^ 64))
  /\ x_unknown x = N.of_nat (length (filter (fun i => match first_hit d (removelast table) i with
                                                  | Some _ => false | None => true end) insns)) mod 2 ^ 64
  /\ (x_hits x + x_misses x) mod 2 ^ 64 = N.of_nat (length insns) mod 2 ^ 64.
Proof. exact mix_spec. Qed.
Print Assumptions C34_mix.
Theorem C34_total : forall table d insns x, Forall covers table -> N.of_nat (length table) < 2 ^ 31 ->
  Forall (fun i => i < 2 ^ 32) insns -> N.of_nat (length insns) < 2 ^ 64 ->
  mix_all table d (mix_init table) insns = Some x ->
  sumN (x_count x) + x_unknown x = N.of_nat (length insns).
Proof. exact mix_total. Qed.
Print Assumptions C34_total.
(** addi with simplified li before it, add, b; then an entry of another
    processor, and the last one *)
Definition ex_table : list popcode :=
  [mk_popcode 0x38000000 0xfc1f0000 1; mk_popcode 0x38000000 0xfc000000 1;
   mk_popcode 0x48000000 0xfc000003 1; mk_popcode 0x7c000214 0xfc0007ff 2;
   mk_popcode 0x7c000214 0xfc0007ff 1; mk_popcode 0xf8000000 0xfc000003 1].
Example C34_ex : Forall covers ex_table /\
  match mix_all ex_table 1 (mix_init ex_table)
          [0x38600001; 0x38630001; 0x7c632214; 0x38600001; 0x48000010; 0xf8010010; 0] with
  | Some x => x_count x = [2; 1; 1; 0; 1; 0] /\ x_unknown x = 2 /\ x_hits x = 1 /\ x_misses x = 6
  | None => False
  end.
Proof. split; [repeat constructor|vm_compute; repeat split; reflexivity]. Qed.
Theorem C34_last_entry_refuted : ~ forall table d insns x, Forall covers table ->
  Forall (fun i => i < 2 ^ 32) insns -> mix_all table d (mix_init table) insns = Some x ->
  x_unknown x = N.of_nat (length (filter (fun i => match first_hit d table i with
                                                  | Some _ => false | None => true end) insns)) mod 2 ^ 64.
Proof.
  intros H. specialize (H ex_table 1 [0xf8010010]).
  destruct (mix_all ex_table 1 (mix_init ex_table) [0xf8010010]) as [x|] eqn:E; [|discriminate].
  specialize (H x ltac:(repeat constructor) ltac:(repeat constructor) eq_refl).
  assert (X : option_map x_unknown (mix_all ex_table 1 (mix_init ex_table) [0xf8010010]) = Some 1) by (vm_compute; reflexivity).
  rewrite E in X. injection X as X.
  rewrite X in H. discriminate.
Qed.
Print Assumptions C34_last_entry_refuted.

(** The printed tables have every entry with a count once, in descending
    order, when counts are below 2^31; stopping at the first zero makes no
    difference. *)
Theorem C52_report : forall qs counts, sorter qs -> Forall (fun c => c < 2 ^ 31) counts ->
  complete counts (report qs counts) /\ report_until qs counts = report qs counts.
Proof. exact report_ok. Qed.
Print Assumptions C52_report.
(** With larger counts the comparison function truncates and a call that was
    made is not printed. *)
Theorem C52_large_count_refuted : forall qs, sorter qs -> report_until qs [0; 2 ^ 31 + 1] = [].
Proof. exact report_hides. Qed.
Print Assumptions C52_large_count_refuted.

Fixpoint insert (cmp : entry -> entry -> Z) (a : entry) (l : list entry) : list entry :=
  match l with
  | [] => [a]
  | b :: l' => if (cmp a b <=? 0)%Z then a :: l else b :: insert cmp a l'
  end.
Definition isort : eqsort := fun cmp l => fold_right (insert cmp) [] l.
Example C52_ex : report isort [0; 3; 0; 7; 5] = [(3%nat, 7); (4%nat, 5); (1%nat, 3)].
Proof. reflexivity. Qed.
Lemma insert_perm : forall cmp a l, Permutation (a :: l) (insert cmp a l).
Proof.
  induction l as [|b l IH]; cbn; [reflexivity|]. destruct (cmp a b <=? 0)%Z; [reflexivity|].
  etransitivity; [apply perm_swap|]. constructor. exact IH.
Qed.
Lemma insert_ordered : forall cmp a l, consistent_on (a :: l) cmp -> ordered (fun a b => (cmp a b <= 0)%Z) l ->
  ordered (fun a b => (cmp a b <= 0)%Z) (insert cmp a l).
Proof.
  induction l as [|b l IH]; intros [C1 C2] O; cbn [insert]; [split; [constructor|exact I]|].
  destruct O as [O1 O2]. destruct (Z.leb_spec (cmp a b) 0) as [L|L].
  - split; [|split; assumption]. constructor; [exact L|]. rewrite Forall_forall in *. intros x X.
    apply (C2 a b x); cbn; auto.
  - split.
    + rewrite Forall_forall in *. intros x X.
      apply (Permutation_in _ (Permutation_sym (insert_perm cmp a l))) in X. destruct X as [<- |X]; [|auto].
      specialize (C1 a b). cbn in C1. specialize (C1 ltac:(auto) ltac:(auto)). lia.
    + apply IH; [|exact O2]. split.
      * intros x y X Y. apply C1; cbn in *; tauto.
      * intros x y z X Y Z. apply C2; cbn in *; tauto.
Qed.
Example C52_sorter : sorter isort.
Proof.
  intros cmp l. induction l as [|a l IH]; intros [C1 C2]; [split; [constructor|exact I]|].
  destruct IH as [P O].
  { split; [intros x y X Y; apply C1; right; assumption|intros x y z X Y Z; apply C2; right; assumption]. }
  cbn [isort fold_right]. fold (isort cmp l). split.
  - etransitivity; [constructor; exact P|apply insert_perm].
  - apply insert_ordered; [|exact O]. assert (E : forall x, In x (a :: isort cmp l) -> In x (a :: l)).
    { intros x [<- |X]; [left; reflexivity|right; apply (Permutation_in _ (Permutation_sym P)), X]. }
    split; [intros x y X Y; apply C1; auto|intros x y z X Y Z; apply C2; auto].
Qed.
