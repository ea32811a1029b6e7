(** C57: what is lost in the file. *)
Require Import NArith ZArith List Bool.
Require Import Verif.Word Verif.Codec_Types Verif.Codec_Spec Verif.HtmBits_Spec Verif.Writer_Model Verif.Reader_Model Verif.Htm_Model.
Require Import Verif.Trace_Spec Verif.Trace8_Proofs5 Verif.Trace10_Spec Verif.Trace10_Proofs7 Verif.Convert_Model Verif.Convert_Spec.
Require Verif.Tlb_Model Verif.Tlb_Spec Verif.Tlb_Props.
Import ListNotations.
Local Open Scope N_scope.

Definition conv (ws : list N) : cres := htmdecoder Tlb_Props.isort quiet no_junk (bytes_of ws) true.
Definition views (r : cres) : list view :=
  match r with COk f => map view_of (fst (read_trace false false (repeat 0 4) f)) | _ => [] end.
(** A POWER8 instruction with a 4K page. *)
Definition at_page (a p : N) : insn8 :=
  mk_insn8 0x60000000 0x60000000 false 0 0 false (Some ([], a + 1)) (Some ([], p * 2 ^ 26 + 2 ^ 24)) None None.
(** A POWER10 load with walks, and an instruction with a walk. *)
Definition load_walk (a r d x : N) : insn10 :=
  mk_insn10 [xl_of false 1 2 (walk64k 0x70000 r)] (Some (([], 0, 0), ([], a), ([], r * 2 ^ 12)))
    [xl_of true 1 2 (walk64k 0x90000 x)] [] 0xE8640008 0xE8640008 false (a mod 128 / 4) false ([], GUEST) None
    [(([], d), ([], x * 2 ^ 11))].
Definition junk_walk (_ : Z) : qrec :=
  mk_qrec 0 0 false 0 false 0 false 0 false 0 false 0 false false false 0 false 0
    (mk_radix 0 5 1 (rx_host_ptes zero_radix) (rx_host_real zero_radix) (rx_guest_real zero_radix)) zero_radix.
Definition zero_word (w : N) : insn10 :=
  mk_insn10 [] (Some (([], 0, 0), ([], 0x10123400), ([], 0))) [] [] w w false 1 false ([], 0x8000000000000000) None [].

Lemma junk_asserts : ~ forall junk, (forall n, typed (junk n)) ->
  exists f, htmdecoder Tlb_Props.isort quiet junk (bytes_of (insn_words (plain 0x60000000))) true = COk f.
Proof.
  intros H.
  assert (L : match htmdecoder Tlb_Props.isort quiet junk_walk (bytes_of (insn_words (plain 0x60000000))) true with
              | COk _ => true | _ => false end = false) by (vm_compute; reflexivity).
  destruct (H junk_walk) as [f E].
  - intros n. unfold typed, typed_radix, junk_walk. cbn. repeat split; repeat constructor.
  - rewrite E in L. discriminate L.
Qed.
Lemma page_truncated : ~ forall p, p < 2 ^ 38 ->
  map v_ra (views (conv (insn_words (at_page 0x1000 p)))) = [Some (p * 2 ^ 12)].
Proof.
  intros H. specialize (H 0x345600789 eq_refl).
  assert (L : map v_ra (views (conv (insn_words (at_page 0x1000 0x345600789)))) = [Some 0x45600789000]) by (vm_compute; reflexivity).
  rewrite L in H. vm_compute in H. discriminate H.
Qed.
Lemma crossing_lost : ~ forall a p p', a mod 4 = 0 -> a < 2 ^ 32 -> p < 2 ^ 32 -> p' < 2 ^ 32 ->
  a / 2 ^ 12 <> (a + 4) / 2 ^ 12 ->
  map v_ra (views (conv (insn_words (at_page a p) ++ insn_words (at_page (a + 4) p'))))
  = [Some (p * 2 ^ 12 + a mod 2 ^ 12); Some (p' * 2 ^ 12 + (a + 4) mod 2 ^ 12)].
Proof.
  intros H. specialize (H 0x1ffc 6 9 eq_refl eq_refl eq_refl eq_refl ltac:(discriminate)).
  assert (L : map v_ra (views (conv (insn_words (at_page 0x1ffc 6) ++ insn_words (at_page 0x2000 9)))) = [Some 0x6ffc; Some 0x6000])
    by (vm_compute; reflexivity).
  change (0x1ffc + 4) with 0x2000 in H. rewrite L in H. vm_compute in H. discriminate H.
Qed.
Definition load_jump (d x : N) : list item10 :=
  [JInsn (load_walk 0x10123404 0x50123000 d x);
   JInsn (load10 GUEST [xl_of false 1 2 (walk64k 0x80000 0x50128000)] 0x10128404 0x50128000)].
Lemma data_swapped : ~ forall d x, d < 2 ^ 52 -> x < 2 ^ 52 -> x mod 4096 = 0 -> d mod 2 ^ 21 / 4096 = x mod 2 ^ 21 / 4096 ->
  map v_dra (views (conv (file10 true start10 (load_jump d x)))) = [Some (x + d mod 4096); None].
Proof.
  intros H. specialize (H 0x20045678 0x60045000 eq_refl eq_refl eq_refl eq_refl).
  assert (L : map v_dra (views (conv (file10 true start10 (load_jump 0x20045678 0x60045000)))) = [Some 0x3005678; None])
    by (vm_compute; reflexivity).
  rewrite L in H. vm_compute in H. discriminate H.
Qed.
Lemma zero_lost : ~ forall w, w < 2 ^ 32 ->
  map v_insn (views (conv (file10 true start10 [JInsn (zero_word 0x60000000); JInsn (zero_word w)]))) = [0x60000000; w].
Proof.
  intros H. specialize (H 0 eq_refl).
  assert (L : length (map v_insn (views (conv (file10 true start10 [JInsn (zero_word 0x60000000); JInsn (zero_word 0)])))) <> 2%nat)
    by (vm_compute; discriminate).
  rewrite H in L. apply L. reflexivity.
Qed.
