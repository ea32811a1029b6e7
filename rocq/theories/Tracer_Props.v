(** C58, C59: ptracer's file, and what it tells the threads. *)
Require Import NArith ZArith List Bool Lia.
Require Import Verif.Word Verif.Codec_Types Verif.Codec_Spec Verif.Writer_Model Verif.Reader_Model.
Require Import Verif.Branch_Spec Verif.Storage_Spec Verif.Step_Model Verif.Step_Spec Verif.Pids_Model Verif.Pids_Spec.
Require Import Verif.Convert_Spec Verif.Tracer_Model Verif.Tracer_Spec Verif.Tracer_Proofs3 Verif.Tracer_Proofs4.
Require Verif.Pagemap_Model.
Import ListNotations.
Local Open Scope N_scope.

(** For every sequence of events as in [is_kind], with any options -n, -s and
    -x: the tracer ends at the event [session] says, or still waits; if it
    ends, reading its file gives exactly the wanted instructions. *)
Theorem C58_file : forall be xl max tp skip left l0 t evs ks slack,
  left < 2 ^ 64 -> holds max t l0 -> (length l0 <= max)%nat -> Forall2 (is_kind xl tp) evs ks ->
  (4 <= length slack)%nat ->
  let '(p, ended) := session tp skip left 0 (combine evs ks) in
  let w := wanted skip left (flat_map saw p) in
  N.of_nat (length w) < 2 ^ 31 -> Forall (fun x => s_word x <> 0) w ->
  if ended
  then exists gs h file,
      ptracer_file (main_loop be max xl tp (start skip left t tp) evs) = FClosed file
      /\ told xl [] w gs h
      /\ converted gs (map view_of (fst (read_trace false false slack file)))
      /\ snd (read_trace false false slack file) = EndFalse
  else exists s, main_loop be max xl tp (start skip left t tp) evs = TWaits s.
Proof. exact file_ok. Qed.
Print Assumptions C58_file.

(** The number of records: all instructions behind the skipped ones, up to the
    limit. *)
Theorem C58_count : forall be xl max tp skip left l0 t evs ks slack file,
  left < 2 ^ 64 -> holds max t l0 -> (length l0 <= max)%nat -> Forall2 (is_kind xl tp) evs ks ->
  (4 <= length slack)%nat ->
  let p := fst (session tp skip left 0 (combine evs ks)) in
  let n := N.of_nat (length (flat_map reports p)) in
  n < 2 ^ 31 -> Forall (fun x => s_word x <> 0) (flat_map saw p) ->
  ptracer_file (main_loop be max xl tp (start skip left t tp) evs) = FClosed file ->
  N.of_nat (length (fst (read_trace false false slack file)))
  = if unlimited left then n - skip else N.min left (n - skip).
Proof. exact count_ok. Qed.
Print Assumptions C58_count.

(** C59: what the tracer asks for, event by event, and the threads it knows. *)
Theorem C59_requests : forall be xl max tp skip left l0 t evs ks,
  left < 2 ^ 64 -> holds max t l0 -> (length l0 <= max)%nat -> Forall2 (is_kind xl tp) evs ks ->
  let s := session tp skip left 0 (combine evs ks) in
  N.of_nat (length (wanted skip left (flat_map saw (fst s)))) < 2 ^ 31 ->
  exists st, main_loop be max xl tp (start skip left t tp) evs = (if snd s then TClosed st else TWaits st)
    /\ t_done st = Step tp 0 :: responses max tp l0 s
    /\ holds max (t_pids st) (threads max l0 (fst s)).
Proof. exact requests_ok. Qed.
Print Assumptions C59_requests.

(** A thread executes a nop and a load, creates a thread, executes an atomic
    sequence, gets signal 14 and ends; the other thread gets signals and ends. *)
Example C58_ex_kinds : Forall2 (is_kind true 77) ex_events ex_kinds /\ holds 4 table1 [77%Z].
Proof. split; [exact ex_ok|]. repeat split. Qed.
Example C58_ex : map (fun v => (v_insn v, v_addr v, v_ra v, v_daddr v, v_dra v, v_branch v)) (file_views (ex_run 0 100))
  = [(0x60000000, 0x410000, Some 0x10410000, None, None, false);
     (0xe8610008, 0x410004, Some 0x10410004, Some 0x500008, Some 0x10500008, false);
     (0x7d201828, 0x410008, Some 0x10410008, Some 0x600010, Some 0x10600010, false);
     (0x7d40192d, 0x41000c, Some 0x1041000c, Some 0x600010, Some 0x10600010, false);
     (0x60000000, 0x410010, Some 0x10410010, None, None, false);
     (0x4e800020, 0x410014, Some 0x10410014, None, None, true)].
Proof. vm_compute. reflexivity. Qed.
(** With -s 1 -n 3 the limit is reached inside of the sequence: the tracer ends
    at the next stop. *)
Example C58_ex_limit : map v_addr (file_views (ex_run 1 3)) = [0x410004; 0x410008; 0x41000c].
Proof. vm_compute. reflexivity. Qed.
Example C59_ex : done_of (ex_run 0 100)
  = [Step 77 0; Step 77 0; Step 77 0; Step 77 0; Cont 78 5; Cont 77 0; Step 77 0; Cont 78 10; Cont 78 0; Detach 78; Step 77 14].
Proof. vm_compute. reflexivity. Qed.
Example C59_ex_limit : done_of (ex_run 0 1) = [Step 77 0; Detach 77].
Proof. vm_compute. reflexivity. Qed.

(** A signal that arrives before an instruction is executed: the instruction is
    recorded and looks like a branch. *)
Theorem C58_signal_refuted : ~ forall evs ks, Forall2 (is_kind true 77) evs ks ->
  Forall (fun v => v_branch v = true -> isa_bo_branch (v_insn v) \/ isa_always_branch (v_insn v))
    (file_views (main_loop false 4 true 77 (start 0 100 table1 77) evs)).
Proof. exact branch_made_up. Qed.
Print Assumptions C58_signal_refuted.

(** A signal that arrives at an atomic sequence is not delivered. *)
Theorem C59_lost_refuted : ~ forall evs ks, Forall2 (is_kind true 77) evs ks ->
  forall e, In e evs -> halts 77 e -> e_sig e <> 5 ->
  exists r, In r (done_of (main_loop false 4 true 77 (start 0 100 table1 77) evs))
    /\ (r = Step 77 (e_sig e) \/ r = Cont 77 (e_sig e)).
Proof. exact signal_lost. Qed.
Print Assumptions C59_lost_refuted.
