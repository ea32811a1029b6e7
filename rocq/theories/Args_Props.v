(** C71: command lines. *)
Require Import Arith ZArith NArith List Bool.
Require Import Verif.Args_Model Verif.Args_Spec Verif.Args_Proofs Verif.Args_Proofs2.
Import ListNotations.
Local Open Scope N_scope.

(** getopt reads exactly the conventions. *)
Theorem C71_getopt : forall stop o, o 45 = None -> forall l ops ws,
  line stop o l ops ws <-> getopt stop o ws = (l, ops) /\ ~ In Bad l.
Proof. exact getopt_is. Qed.
Print Assumptions C71_getopt.

(** A well-formed command line means what [*_means] says of its options,
    whatever their order and spelling; any other is rejected. *)
Theorem C71_ptracer : forall l ops ws, line true o_ptracer l ops ws -> ptracer ws = ptracer_means l ops.
Proof. exact ptracer_is. Qed.
Print Assumptions C71_ptracer.
Theorem C71_ptracer_rejects : forall ws, (forall l ops, ~ line true o_ptracer l ops ws) -> ptracer ws = Usage 1.
Proof. exact ptracer_bad. Qed.
Print Assumptions C71_ptracer_rejects.

Theorem C71_qtdis : forall bfd l ops ws, line false o_qtdis l ops ws -> qtdis bfd ws = qtdis_means bfd l ops.
Proof. exact qtdis_is. Qed.
Print Assumptions C71_qtdis.
Theorem C71_qtdis_rejects : forall bfd ws, (forall l ops, ~ line false o_qtdis l ops ws) -> qtdis bfd ws = Usage 1.
Proof. exact qtdis_bad. Qed.
Print Assumptions C71_qtdis_rejects.

Theorem C71_htmdecoder : forall l ops ws, line false o_htm l ops ws -> htmdecoder ws = htm_means l ops.
Proof. exact htm_is. Qed.
Print Assumptions C71_htmdecoder.
(** ... but htmdecoder calls this a success. *)
Theorem C71_htmdecoder_rejects : forall ws, (forall l ops, ~ line false o_htm l ops ws) -> htmdecoder ws = Usage 0.
Proof. exact htm_bad. Qed.
Print Assumptions C71_htmdecoder_rejects.

Theorem C71_bbv : forall dim per l ops ws, line false o_bbv l ops ws -> bbv dim per ws = bbv_means dim per l ops.
Proof. exact bbv_is. Qed.
Print Assumptions C71_bbv.
Theorem C71_bbv_rejects : forall dim per ws, (forall l ops, ~ line false o_bbv l ops ws) -> bbv dim per ws = Usage 1.
Proof. exact bbv_bad. Qed.
Print Assumptions C71_bbv_rejects.

(** Numbers are read as they are written, as far as they fit. *)
Theorem C71_count : forall ds, Forall (fun d => d < 10) ds -> ds <> [] -> value_of ds < 2 ^ 63 ->
  ulong_of (strtol (text_of ds)) = value_of ds.
Proof. exact count_text. Qed.
Print Assumptions C71_count.
Theorem C71_pid : forall ds, Forall (fun d => d < 10) ds -> ds <> [] -> value_of ds < 2 ^ 31 ->
  atoi (text_of ds) = Z.of_N (value_of ds).
Proof. exact pid_text. Qed.
Print Assumptions C71_pid.
Theorem C71_ulong : forall ds rest, Forall (fun d => d < 10) ds -> ds <> [] -> ended rest ->
  strtoul (text_of ds ++ rest) = N.min (2 ^ 64 - 1) (value_of ds).
Proof. exact strtoul_text. Qed.
Print Assumptions C71_ulong.

(** What is no number is taken for one: "-n x" traces nothing, "-k 4294967296"
    asks for a sweep. *)
Definition cmd : word := [108; 115].                       (* ls *)
Theorem C71_garbage_refuted :
  ptracer [[45; 110]; [120]; cmd]
  = Run (mk_plan (Some Stdout) None (Exec [cmd]) 0 0 false false None).
Proof. vm_compute. reflexivity. Qed.
Print Assumptions C71_garbage_refuted.
Theorem C71_k_refuted : forall dim per,
  bbv dim per [[45; 107; 52; 50; 57; 52; 57; 54; 55; 50; 57; 54]; cmd] = Run (mk_b dim 0 per 0, cmd).
Proof. intros. vm_compute. reflexivity. Qed.
Print Assumptions C71_k_refuted.
(** htmdecoder names the first option as the file that cannot be opened. *)
Theorem C71_blame_refuted :
  exists args p, htmdecoder args = Run p /\ htm_blames args <> hp_in p.
Proof.
  exists [[45; 100]; cmd], (mk_hp (mk_h false true None false false false) cmd (Some [108; 115; 46; 113; 116])).
  split; [vm_compute; reflexivity|intros H; discriminate H].
Qed.
Print Assumptions C71_blame_refuted.
(** It ignores all but the first of several inputs. *)
Theorem C71_inputs_refuted : exists p q args, htmdecoder [p; q] = Run args /\ htmdecoder [p] = Run args /\ p <> q.
Proof.
  exists cmd, [120], (mk_hp h_init cmd (Some [108; 115; 46; 113; 116])).
  split; [vm_compute; reflexivity|]. split; [vm_compute; reflexivity|]. intros H; discriminate H.
Qed.
Print Assumptions C71_inputs_refuted.

(** Example: ptracer -rq t.qt -n 100 -x -- ls -l *)
Example C71_ex :
  ptracer [[45; 114; 113]; [116; 46; 113; 116]; [45; 110]; [49; 48; 48]; [45; 120]; [45; 45]; cmd; [45; 108]]
  = Run (mk_plan None (Some [116; 46; 113; 116]) (Exec [cmd; [45; 108]]) 100 0 true true None).
Proof. vm_compute. reflexivity. Qed.
Example C71_ex_line :
  line true o_ptracer [Opt 114 None; Opt 110 (Some [53])] [cmd; [45; 108]] [[45; 114]; [45; 110; 53]; cmd; [45; 108]].
Proof.
  apply (l_flags true o_ptracer [114]); [discriminate|repeat constructor|].
  apply (l_joined true o_ptracer [] 110 [53]); [constructor|reflexivity|discriminate|].
  apply l_stop; [reflexivity|]. right. discriminate.
Qed.
(** Operands among the options: qtdis t.qt -sd 1 *)
Example C71_ex_mixed :
  qtdis true [[116; 46; 113; 116]; [45; 115; 100]; [49]]
  = Run (mk_d [] false 1 false true false false 0, [116; 46; 113; 116]).
Proof. vm_compute. reflexivity. Qed.
