(** C30: the word stream of hardware traces. *)
Require Import NArith ZArith List Bool.
Require Import Verif.Word Verif.Codec_Types Verif.Htm_Model Verif.Htm_Spec.
Require Import Verif.Htm_Proofs Verif.Htm_Proofs2 Verif.Htm_Proofs3.
Require Verif.Tlb_Model Verif.Bb_Model.
Import ListNotations.
Local Open Scope N_scope.

(** For every sequence of reads and steps back, the words are those of the
    file in order, and the numbers of words, the sum and the offset are those
    of the words before the position.  A word can be stepped over once. *)
Theorem C30_cursor : forall bytes bad stale, (forall z, length (stale z) = 8%nat) ->
  forall ops tlb bb,
  script stale ops (init_st bytes bad tlb bb) None = reading bytes bad stale ops 0 0 false.
Proof. exact script_init. Qed.
Print Assumptions C30_cursor.

(** The decoder: it ends, never steps back twice over a word, and its sum is
    that of all words delivered. *)
Theorem C30_decode : forall qs stale junk full bytes bad,
  (forall z, length (stale z) = 8%nat) ->
  match htm_decode qs stale junk full bytes bad with
  | HErr e => e <> HFuel /\ e <> HStuck
  | HOk s => c_nr (h_cur s) = Z.of_nat (words bytes bad)
      /\ c_scanned (h_cur s) = N.of_nat (words bytes bad) mod 2 ^ 32
      /\ c_sum (h_cur s) = sum_to bytes stale (words bytes bad)
      /\ c_off (h_cur s) = 8 * N.of_nat (words bytes bad) mod 2 ^ 64
  end.
Proof. exact decode_words. Qed.
Print Assumptions C30_decode.

(** Two timestamps, then three bytes of a word: [words] is four. *)
Definition stamp (elapsed : N) : list N := [0xAC; 0xEF; 0xF8; 0; 0; 0; 0; elapsed].
Definition ex_file : list N := stamp 1 ++ stamp 2 ++ [0; 0; 1].
Definition quiet (_ : Z) : list N := repeat 0 8.
Definition id_sort : Tlb_Model.qsort := fun _ l => l.
Definition no_junk (_ : Z) : qrec := zero_qrec.
Example C30_ex_words : words ex_file false = 4%nat /\ words ex_file true = 2%nat
  /\ word_at ex_file quiet 0 = 0xACEFF80000000001 /\ word_at ex_file quiet 2 = 0x10000000000
  /\ sum_to ex_file quiet 4 = 0xACEFF800 + 0x00000001 + (0xACEFF800 + 0x00000002) + 0x100.
Proof. vm_compute. repeat split; reflexivity. Qed.
Example C30_ex_decode :
  match htm_decode id_sort quiet no_junk true ex_file false with
  | HOk s => c_nr (h_cur s) = 4%Z /\ c_sum (h_cur s) = sum_to ex_file quiet 4
             /\ h_out s = [RTime (Normal 1); RTime (Normal 2)]
  | HErr _ => False
  end.
Proof. vm_compute. repeat split; reflexivity. Qed.
Example C30_ex_script : forall tlb bb,
  script quiet [Fetch; Fetch; Back; Fetch; Back] (init_st ex_file true tlb bb) None
  = [Word 0xACEFF80000000001 1 0xACEFF801 8;
     Word 0xACEFF80000000002 2 0x159DFF003 16;
     Moved 1 0xACEFF801 8;
     Word 0xACEFF80000000002 2 0x159DFF003 16;
     Stuck].
Proof. intros. vm_compute. reflexivity. Qed.

(** It does not hold that the words and the records are those of the file:
    the word read at end of file is whatever the buffer contains.  When it
    still contains the last word, the last record comes twice. *)
Theorem C30_phantom_refuted : ~ forall stale stale', (forall z, length (stale z) = 8%nat) ->
  (forall z, length (stale' z) = 8%nat) ->
  forall bytes s s',
  htm_decode id_sort stale no_junk true bytes false = HOk s ->
  htm_decode id_sort stale' no_junk true bytes false = HOk s' ->
  c_sum (h_cur s) = c_sum (h_cur s') /\ h_out s = h_out s'.
Proof. exact phantom. Qed.
Print Assumptions C30_phantom_refuted.
