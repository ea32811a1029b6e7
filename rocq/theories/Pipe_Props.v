(** C75: what qtdis lists and what the statistics script makes of it. *)
Require Import NArith ZArith List Bool.
Require Import Verif.Storage_Spec Verif.Step_Model Verif.Step_Spec Verif.Pids_Model Verif.Pids_Spec.
Require Import Verif.Tracer_Model Verif.Tracer_Spec Verif.Tracer_Proofs3 Verif.Tracer_Proofs4.
Require Import Verif.Word Verif.Codec_Types Verif.Codec_Spec Verif.HtmBits_Spec Verif.Writer_Model Verif.Reader_Model Verif.Htm_Model.
Require Import Verif.Qtdis_Model Verif.Qtdis_Spec.
Require Import Verif.Trace_Spec Verif.Trace8_Proofs5 Verif.Trace8_Props Verif.Trace10_Spec Verif.Trace10_Proofs7 Verif.Trace10_Props.
Require Import Verif.Convert_Model Verif.Convert_Spec Verif.Convert_Proofs4 Verif.Convert_Props.
Require Import Verif.Tools_Model Verif.Tools_Spec Verif.Tools_Proofs Verif.Tools_Proofs2 Verif.Tools_Proofs3.
Require Import Verif.Pipe_Model Verif.Pipe_Spec Verif.Pipe_Proofs Verif.Pipe_Proofs2.
Require Verif.Script_Model Verif.Script_Spec Verif.Stats_Model Verif.Tlb_Model Verif.Tlb_Spec Verif.Tlb_Props.
Import ListNotations.
Local Open Scope N_scope.

(** Whatever the symbols and the disassembler, and for every trace qtwriter
    writes: the script reads the listing to its end, its numbers are those of
    the addresses of the instructions, and below the addresses of modules they
    are those of qtdis -s for the same file. *)
Theorem C75_written : forall sym dis magic rs slack, plain_names sym -> plain_texts dis ->
  magic < 2 ^ 32 -> frames rs -> closes rs -> complete rs = true -> (4 <= length slack)%nat ->
  let addrs := List.map q_insn_addr (firsts rs) in
  exists file s, write_trace magic rs = inr file /\ piped sym dis slack file = Some s /\ numbers addrs s
    /\ (Forall (fun a => a < 13 * 2 ^ 60) addrs -> exists t m, qtdis_stats slack file = Some (Some t, m) /\ same t s).
Proof. exact pipe_written. Qed.
Print Assumptions C75_written.
(** From a POWER8 or POWER9 trace through htmdecoder and qtdis to the script;
    htmdecoder -s says the same. *)
Theorem C75_power8 : forall sym dis qs stale junk bad items slack, plain_names sym -> plain_texts dis ->
  (forall n, quiet8 (junk n)) -> Tlb_Spec.sorter qs -> (forall z, length (stale z) = 8%nat) ->
  let ws := flat_map words8 items in
  (Z.of_nat (length ws) < 2 ^ 30)%Z -> trace8_ok 0 items ->
  Tlb_Spec.no_mixed_overlap (pages8 0 items) -> Tlb_Spec.top_unused [] (pages8 0 items) ->
  bad = true \/ other (be_val (stale (Z.of_nat (length ws)))) -> (4 <= length slack)%nat ->
  Forall whole8 items ->
  exists file s, htmdecoder qs stale junk (bytes_of ws) bad = COk file
    /\ piped sym dis slack file = Some s /\ numbers (List.map fst (insns8 0 items)) s
    /\ (Forall (fun x => fst x < 13 * 2 ^ 60) (insns8 0 items) ->
        exists t m, htmdecoder_stats qs stale junk (bytes_of ws) bad = Some (Some t, m)
          /\ qtdis_stats slack file = Some (Some t, m) /\ same t s).
Proof. exact pipe8. Qed.
Print Assumptions C75_power8.
(** From a POWER10 trace; a prefixed instruction counts once. *)
Theorem C75_power10 : forall sym dis qs stale junk bad items slack, plain_names sym -> plain_texts dis ->
  (forall n, quiet10 (junk n)) -> (forall z, length (stale z) = 8%nat) ->
  let ws := file10 true start10 items in
  (Z.of_nat (length ws) < 2 ^ 30)%Z -> trace10_ok true start10 items -> Forall worded10 items ->
  bad = true \/ other (be_val (stale (Z.of_nat (length ws)))) -> (4 <= length slack)%nat ->
  Forall whole10 items ->
  exists file s, htmdecoder qs stale junk (bytes_of ws) bad = COk file
    /\ piped sym dis slack file = Some s /\ numbers (List.map fst (heads10 start10 items)) s
    /\ (Forall (fun x => fst x < 13 * 2 ^ 60) (heads10 start10 items) ->
        exists t m, qtdis_stats slack file = Some (Some t, m) /\ same t s).
Proof. exact pipe10. Qed.
Print Assumptions C75_power10.
(** From a run of ptracer. *)
Theorem C75_tracer : forall sym dis be xl max tp skip left l0 t evs ks slack, plain_names sym -> plain_texts dis ->
  left < 2 ^ 64 -> holds max t l0 -> (length l0 <= max)%nat -> Forall2 (is_kind xl tp) evs ks ->
  (4 <= length slack)%nat ->
  let '(p, ended) := session tp skip left 0 (combine evs ks) in
  let w := wanted skip left (flat_map saw p) in
  ended = true -> N.of_nat (length w) < 2 ^ 31 -> Forall (fun x => s_word x <> 0 /\ whole_word (s_word x)) w ->
  exists file s, ptracer_file (main_loop be max xl tp (start skip left t tp) evs) = FClosed file
    /\ piped sym dis slack file = Some s /\ numbers (List.map s_addr w) s
    /\ (Forall (fun x => s_addr x < 13 * 2 ^ 60) w -> exists t m, qtdis_stats slack file = Some (Some t, m) /\ same t s).
Proof. exact pipe_tracer. Qed.
Print Assumptions C75_tracer.

(** The traces of C55 and C58; everything is in the function "f" and a nop. *)
Definition all_f (a : N) : option (list N * N) := Some ([102], a mod 2 ^ 16).
Definition all_nop (a : N) (ws : list N) : list N := [110; 111; 112].
Example C75_plain : plain_names all_f /\ plain_texts all_nop.
Proof.
  split.
  - intros a n off E. injection E as <- <-. split; [repeat constructor|].
    eapply N.lt_trans; [apply N.mod_lt; discriminate|reflexivity].
  - intros a ws. split; [repeat constructor; discriminate|]. split; [reflexivity|discriminate].
Qed.
Example C75_ex8 :
  option_map (fun s => (Script_Model.i_system s, Script_Model.i_user s, Script_Model.i_opal s))
    (piped all_f all_nop (repeat 0 4) (file_of (conv (flat_map words8 ex8)))) = Some (4, 0, 0)
  /\ option_map (fun r => option_map (fun s => (Stats_Model.t_system s, Stats_Model.t_user s)) (fst r))
       (qtdis_stats (repeat 0 4) (file_of (conv (flat_map words8 ex8)))) = Some (Some (4, 0)).
Proof. split; vm_compute; reflexivity. Qed.
Example C75_ex_tracer : match ptracer_file (ex_run 0 100) with
  | FClosed f => option_map (fun s => (Script_Model.i_system s, Script_Model.i_user s)) (piped all_f all_nop (repeat 0 4) f) = Some (0, 6)
  | _ => False end.
Proof. vm_compute. reflexivity. Qed.
