(** Properties C20, C21: the basic-block profile (qtlib/bb.c). *)
Require Import NArith ZArith List Bool Permutation Lia.
Require Import Verif.Word Verif.Bb_Model Verif.Bb_Spec Verif.Bb_Proofs Verif.Bb_Proofs2.
Import ListNotations.
Local Open Scope N_scope.

(** C20: [profile log] has one entry per distinct address, in order of first
    occurrence, with its number of occurrences. *)
Theorem C20_profile : forall log, N.of_nat (length (firsts log)) <= 2 ^ 30 ->
  exists s, bb_run log = BOk s /\
    firstn (N.to_nat (bb_next s)) (arr s) = profile log /\
    bb_next s <= bb_size s /\
    bb_num s = N.of_nat (length log) mod 2 ^ 64 /\
    sumN (map b_hit (profile log)) mod 2 ^ 64 = bb_num s.
Proof. exact counts. Qed.
Print Assumptions C20_profile.
Theorem C20_fails_iff : forall log e,
  bb_run log = BErr e <-> e = BOverflow /\ 2 ^ 30 < N.of_nat (length (firsts log)).
Proof. exact fails_iff. Qed.
Print Assumptions C20_fails_iff.
Theorem C20_distinct : forall log, NoDup (firsts log) /\ forall a, In a (firsts log) <-> In a log.
Proof. intros. split; [apply firsts_nodup|apply firsts_in]. Qed.
Print Assumptions C20_distinct.
Definition ex_log : list N := [0x100; 0x104; 0x108; 0x104; 0x108; 0x200; 0x104; 0x108; 0x10C]
  ++ repeat 0x10C 10.
Example C20_ex :
  match bb_run ex_log with
  | BOk s => firstn 5 (arr s) = [mk_bbe 0x100 1 1 true; mk_bbe 0x104 1 3 true;
               mk_bbe 0x108 1 3 true; mk_bbe 0x200 1 1 true; mk_bbe 0x10C 1 11 true]
             /\ bb_size s = 8 /\ bb_num s = 19
  | BErr _ => False
  end.
Proof. vm_compute. repeat split. Qed.

(** C21, for fewer than 2^31 logged instructions.  The blocks tile the set of
    logged addresses; a block's hit count is that of its first address; all
    members are within 3 of it; largest first; and, for aligned addresses,
    blocks cannot be extended. *)
Theorem C21_blocks : forall qs log s, sorter qs -> Forall (fun a => a < 2 ^ 64) log ->
  N.of_nat (length log) < 2 ^ 31 -> bb_run log = BOk s ->
  exists B, bb_dump qs s = BOk B /\
    Permutation (flat_map block_addrs B) (firsts log) /\
    Forall (fun b => b_hit b = occ (b_ea b) log /\ 0 < b_size b /\
                     Forall (fun a => near (occ a log) (b_hit b)) (block_addrs b)) B /\
    ordered (fun a b => b_size b * b_hit b <= b_size a * b_hit a) B /\
    (Forall (fun a => a mod 4 = 0) log ->
     Forall (fun b => In (b_ea b + 4 * b_size b) log ->
                      ~ near (occ (b_ea b + 4 * b_size b) log) (b_hit b)) B).
Proof. exact dump_small. Qed.
Print Assumptions C21_blocks.
(** For any number of instructions: hit counts are only compared modulo 2^32,
    and a difference of 2^31 is undefined behaviour (abs(INT_MIN)). *)
Theorem C21_blocks_any_length : forall qs log s, sorter qs -> Forall (fun a => a < 2 ^ 64) log ->
  bb_run log = BOk s ->
  match bb_dump qs s with
  | BErr e => e = BAbs /\ exists x y, In x log /\ In y log /\
      ((Z.of_N (hits log x) - Z.of_N (hits log y)) mod 2 ^ 32 = 2 ^ 31)%Z
  | BOk B =>
      Permutation (flat_map block_addrs B) (firsts log) /\
      Forall (fun b => b_hit b = hits log (b_ea b) /\ 0 < b_size b /\
                       Forall (fun a => near32 (hits log a) (b_hit b)) (block_addrs b)) B /\
      ordered (fun a b => (b_size b * b_hit b) mod 2 ^ 64 <= (b_size a * b_hit a) mod 2 ^ 64) B /\
      (Forall (fun a => a mod 4 = 0) log ->
       Forall (fun b => In (endof b) log -> ~ near32 (hits log (endof b)) (b_hit b)) B)
  end.
Proof. exact dump_general. Qed.
Print Assumptions C21_blocks_any_length.
(** So the plain claim "within 3" fails for long traces. *)
Theorem C21_within_three_refuted : forall qs, sorter qs ->
  exists log s b, Forall (fun a => a < 2 ^ 64) log /\ bb_run log = BOk s /\
    bb_dump qs s = BOk [b] /\ block_addrs b = [0x1000; 0x1004] /\
    occ 0x1000 log = 1 /\ occ 0x1004 log = 2 ^ 32 + 1.
Proof. exact truncated_merge. Qed.
Print Assumptions C21_within_three_refuted.

(** A sorter exists, so the hypothesis is satisfiable. *)
Fixpoint insert (cmp : bbe -> bbe -> Z) (a : bbe) (l : list bbe) : list bbe :=
  match l with
  | [] => [a]
  | b :: l' => if Z.leb (cmp a b) 0 then a :: l else b :: insert cmp a l'
  end.
Definition isort : qsort := fun cmp l => fold_right (insert cmp) [] l.
Example C21_sorter : sorter isort.
Proof.
  intros cmp l [Ha Ht].
  assert (P : forall a l, Permutation (a :: l) (insert cmp a l)).
  { intros a l0. induction l0 as [|b l0 IH]; [reflexivity|]. cbn.
    destruct (Z.leb (cmp a b) 0); [reflexivity|]. rewrite perm_swap. now constructor. }
  assert (O : forall a l, ordered (fun x y => (cmp x y <= 0)%Z) l ->
                          ordered (fun x y => (cmp x y <= 0)%Z) (insert cmp a l)).
  { intros a l0. induction l0 as [|b l0 IH]; intros H; [now split|]. cbn.
    destruct (Z.leb (cmp a b) 0) eqn:E.
    - split; [|exact H]. apply Z.leb_le in E. constructor; [exact E|].
      destruct H as [H _]. eapply Forall_impl; [|exact H]. cbn. intros x Hx. now apply (Ht a b x).
    - destruct H as [H1 H2]. split; [|now apply IH].
      rewrite Forall_forall in *. intros x Hx.
      apply (Permutation_in x (Permutation_sym (P a l0))) in Hx. destruct Hx as [<-|Hx].
      + apply Z.leb_gt in E. specialize (Ha a b). destruct (cmp a b), (cmp b a); lia.
      + now apply H1. }
  induction l as [|a l IH]; [split; [reflexivity|exact I]|]. cbn. destruct IH as [I1 I2]. split.
  - rewrite <- P. now constructor.
  - now apply O.
Qed.
Example C21_ex :
  match bb_run ex_log with
  | BOk s => bb_dump isort s = BOk [mk_bbe 0x10C 1 11 true; mk_bbe 0x100 3 1 true;
                                    mk_bbe 0x200 1 1 true]
  | BErr _ => False
  end.
Proof. vm_compute. reflexivity. Qed.
