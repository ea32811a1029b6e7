(** C73: the statistics script. *)
Require Import Arith NArith List Bool.
Require Import Verif.Args_Model Verif.Regs_Model Verif.Script_Model Verif.Script_Spec Verif.Script_Proofs Verif.Script_Proofs2.
Require Verif.Stats_Model Verif.Stats_Spec.
Import ListNotations.
Local Open Scope N_scope.

(** Every line of qtdis is taken apart into the address, the disassembly and
    the name of the function, without the prefix of system calls. *)
Theorem C73_parse : forall x, proper x ->
  parse_line (listing x) = Some (mk_pline (q_ea x) (q_text x) (drop_all SyS_ 0 (drop_all sys_ 0 (name_of x)))).
Proof. exact parses. Qed.
Print Assumptions C73_parse.
Theorem C73_names : forall p l, p <> [] -> contains p l = false ->
  drop_all p 0 l = l /\ drop_all p 0 (p ++ l) = l.
Proof. intros p l N C. split; [now apply drop_none|now apply drop_front]. Qed.
Print Assumptions C73_names.
(** So a listing of any length is read to the end. *)
Theorem C73_reads : forall lines, Forall proper lines -> forall s,
  script s (List.map listing lines) = Some (fold_left parse_one
    (List.map (fun x => mk_pline (q_ea x) (q_text x) (drop_all SyS_ 0 (drop_all sys_ 0 (name_of x)))) lines) s).
Proof. exact script_reads. Qed.
Print Assumptions C73_reads.

(** All the numbers are those of the lines of their kind. *)
Theorem C73_counts : forall l, Forall (fun x => pl_addr x < 2 ^ 64) l -> tells (rev l) (fold_left parse_one l pst0).
Proof. exact counts. Qed.
Print Assumptions C73_counts.
Theorem C73_calls : forall p, called_b p = true <-> called p.
Proof. exact called_iff. Qed.
Print Assumptions C73_calls.
Theorem C73_classes : forall l, count kernel_c l + count opal_c l + count user_c l = N.of_nat (length l).
Proof. exact classes. Qed.
Print Assumptions C73_classes.

(** The script and qtdis -s agree below the addresses of modules ... *)
Theorem C73_agree : forall l xs,
  Forall Stats_Spec.wf xs -> List.map pl_addr l = List.map fst xs ->
  Forall (fun x => fst x < 13 * 2 ^ 60) xs ->
  let s := fold_left parse_one l pst0 in
  exists t, Stats_Model.log_all Stats_Model.stt0 xs = Some t
  /\ Stats_Model.t_system t = i_system s mod 2 ^ 64
  /\ Stats_Model.t_opal t = i_opal s mod 2 ^ 64
  /\ Stats_Model.t_user t = i_user s mod 2 ^ 64
  /\ forall k a, nth_error Stats_Model.exceptions k = Some a ->
       nth_error (Stats_Model.t_exc t) k = Some (lookup N.eqb a (i_exc s) mod 2 ^ 64).
Proof. exact agrees. Qed.
Print Assumptions C73_agree.
(** ... but modules and vmalloc space are user code to the script. *)
Theorem C73_modules_refuted : exists a w fn text, Stats_Spec.wf (a, w) /\
  i_user (parse_one pst0 (mk_pline a text fn)) = 1 /\
  exists t, Stats_Model.log_all Stats_Model.stt0 [(a, w)] = Some t /\ Stats_Model.t_system t = 1 /\ Stats_Model.t_user t = 0.
Proof.
  exists 0xd000000000000000, 0x60000000, [], []. split; [split; reflexivity|]. split; [reflexivity|].
  eexists. split; [vm_compute; reflexivity|]. split; reflexivity.
Qed.
Print Assumptions C73_modules_refuted.
(** What it calls the total is not the number of lines: OPAL is left out. *)
Theorem C73_total_refuted : exists l, l <> [] /\ Forall (fun x => pl_addr x < 2 ^ 64) l /\
  total (fold_left parse_one l pst0) = 0 /\ i_opal (fold_left parse_one l pst0) = N.of_nat (length l).
Proof.
  exists [mk_pline 0x30000100 [110; 111; 112] []]. split; [discriminate|]. split; [repeat constructor|]. split; reflexivity.
Qed.
Print Assumptions C73_total_refuted.
(** A program with a function called snooze_loop makes the system share negative. *)
Theorem C73_idle_refuted : exists l, Forall (fun x => pl_addr x < 2 ^ 64) l /\
  let s := fold_left parse_one l pst0 in i_system s < i_idle s.
Proof. exists [mk_pline 0x10000100 [110; 111; 112] snooze]. split; [repeat constructor|reflexivity]. Qed.
Print Assumptions C73_idle_refuted.

(** c000000000004c00 <system_call_common+0x0> \tmfspr; bctrl; then sys_read *)
Example C73_a_call :
  let e := mk_listed 0xc000000000004c00 (Some ([101; 110; 116; 114; 121], 0x0)) [109; 102; 108; 114] in
  let b := mk_listed 0xc00000000000b1a4 (Some ([101; 110; 116; 114; 121], 0x6a4)) bctrl in
  let f := mk_listed 0xc0000000002f1a00 (Some (sys_ ++ [114; 101; 97; 100], 0x0)) [109; 102; 108; 114] in
  let g := mk_listed 0x10000a4c None [97; 100; 100] in
  listing e = [99; 48; 48; 48; 48; 48; 48; 48; 48; 48; 48; 48; 52; 99; 48; 48; 32; 60; 101; 110; 116; 114; 121; 43; 48; 120; 48; 62; 32; 9; 109; 102; 108; 114; 10]
  /\ option_map (fun s => (i_system s, i_user s, i_exc s, i_calls s)) (script pst0 (List.map listing [e; b; f; g]))
     = Some (3, 1, [(0xc00, 1)], [([114; 101; 97; 100], 1)]).
Proof. vm_compute. split; reflexivity. Qed.
Example C73_proper : proper (mk_listed 0xc0000000002f1a00 (Some (sys_ ++ [114; 101; 97; 100], 0x0)) [109; 102; 108; 114]).
Proof. unfold proper, printable. cbn. repeat split; try reflexivity; try discriminate; repeat constructor; discriminate. Qed.
(** Without -r only; with it the word stands between the tab and the text and a
    function is never found. *)
Example C73_garbage : parse_line [10] = None /\ parse_line [60; 32; 97] = None.
Proof. split; reflexivity. Qed.
