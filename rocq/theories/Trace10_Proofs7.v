(** C56: what goes wrong outside its conditions. *)
Require Import NArith ZArith List Bool.
Require Import Verif.Word Verif.Codec_Types Verif.HtmBits_Spec Verif.Pwc_Model Verif.Pwc_Spec Verif.Xlate_Model Verif.Xlate_Spec.
Require Import Verif.Htm_Model Verif.Trace_Spec Verif.Trace8_Proofs5 Verif.Trace10_Spec.
Require Verif.Tlb_Model Verif.Tlb_Spec Verif.Tlb_Props.
Import ListNotations.
Local Open Scope N_scope.

(** Host walks with 2M pages; a guest walk with 64K pages. *)
Definition host2m (n ra : N) : host_walk := mk_hw [n * 0x1000 + 0x100; n * 0x1000 + 0x208; n * 0x1000 + 0x310] ra.
Definition walk64k (g ra : N) : full_walk :=
  mk_fw None [(0x10008, host2m 1 0x40010008); (0x20010, host2m 2 0x40020010); (0x30018, host2m 3 0x40030018);
              (0x40020, host2m 4 0x40040020)] (g, host2m 5 ra) 1 0.
Definition xl_of (dside : bool) (lpid pid : N) (t : full_walk) : xl :=
  mk_xl [] dside lpid pid 0 0 (map (fun w => ([], w, 0)) (full_records t)) ([], zero_walk, 0) t.
(** Address, real page, walks of a load. *)
Definition load10 (msr : N) (ixl : list xl) (a r : N) : insn10 :=
  mk_insn10 ixl (Some (([], 0, 0), ([], a), ([], r * 2 ^ 12))) [] [] 0xE8640008 0xE8640008 false (a mod 128 / 4) false
    ([], msr) None [].
Definition GUEST : N := 0x3000000000000000.    (** translation on *)
Definition decode10 (full : bool) (l : list item10) : hres hst :=
  htm_decode Tlb_Props.isort quiet no_junk full (bytes_of (file10 full start10 l)) true.

(** Checks. *)
Definition xl_okb (d : bool) (y : xl) : bool :=
  Bool.eqb (y_dside y) d && (y_lpid y <? 2 ^ 12) && (y_pid y <? 2 ^ 20) && (y_x33 y <? 2) && (y_x56 y <? 2 ^ 8)
  && (length (y_steps y) <=? 37)%nat
  && forallb (fun p => (wk_level (snd (fst p)) <? 8) && (wk_ra (snd (fst p)) <? 2 ^ 56)
                       && (wk_ra (snd (fst p)) mod 8 =? 0) && (snd p <? 8)) (y_end y :: y_steps y).
Lemma xl_check : forall d y, xl_okb d y = true -> xl_ok d y.
Proof.
  intros d y H. unfold xl_okb in H. repeat (apply andb_prop in H as [H ?]).
  rewrite forallb_forall in *. unfold xl_ok. rewrite Forall_forall.
  repeat match goal with X : (_ <? _) = true |- _ => apply N.ltb_lt in X end.
  apply Bool.eqb_prop in H. apply Nat.leb_le in H1. repeat (split; [assumption|]).
  intros p I. specialize (H0 p I). repeat (apply andb_prop in H0 as [H0 ?]).
  repeat match goal with X : (_ <? _) = true |- _ => apply N.ltb_lt in X | X : (_ =? _) = true |- _ => apply N.eqb_eq in X end.
  repeat split; assumption.
Qed.
Definition sword_okb (p : sword) : bool :=
  match fst p with [] => true | [(w, RPause 7)] => w =? 0xACEFF20000000007 | _ => false end
  && (snd p <? 2 ^ 64) && negb (field 64 (snd p) 0 19 =? 0xACEFF).
Lemma sword_check : forall l, forallb sword_okb l = true -> Forall sword_ok l.
Proof.
  intros l H. apply Forall_forall. intros p I. rewrite forallb_forall in H. specialize (H p I). unfold sword_okb in H.
  apply andb_prop in H as [H H3]. apply andb_prop in H as [H1 H2]. apply N.ltb_lt in H2. apply negb_true_iff, N.eqb_neq in H3.
  split; [|split; assumption]. destruct (fst p) as [|[w r] [|]]; [constructor| |].
  - destruct r as [|  |n| | | |]; try discriminate. assert (n = 7 /\ w = 0xACEFF20000000007) as [-> ->].
    { destruct n as [|n]; [discriminate|]. destruct n as [n|n|]; try discriminate. destruct n as [n|n|]; try discriminate.
      destruct n; try discriminate. apply N.eqb_eq in H1. auto. }
    constructor; [|constructor]. split; [reflexivity|]. exact (stamp_pause 0xACEFF20000000007 eq_refl).
  - destruct r as [| |n| | | |]; try discriminate. destruct n as [|n]; [discriminate|].
    destruct n as [n|n|]; try discriminate. destruct n as [n|n|]; try discriminate. destruct n; discriminate.
Qed.

Lemma real_wrong : ~ forall a r s, a < 2 ^ 64 -> a mod 4 = 0 -> r < 2 ^ 52 -> r mod 4096 = 0 ->
  decode10 true [JInsn (load10 GUEST [xl_of false 1 2 (walk64k 0x70000 r)] a r)] = HOk s ->
  exists q, h_out s = [RInsn q] /\ q_insn_ra_valid q = true /\ q_insn_ra q = r + a mod 4096.
Proof.
  intros H.
  pose (D := decode10 true [JInsn (load10 GUEST [xl_of false 1 2 (walk64k 0x70000 0x50003000)] 0x10013404 0x50003000)]).
  assert (L : match D with HOk s => map (fun x => match x with RInsn q => q_insn_ra q | _ => 0 end) (h_out s) | HErr _ => [] end = [0x50013404])
    by (vm_compute; reflexivity).
  destruct D as [s|e] eqn:E; [|discriminate]. subst D.
  destruct (H 0x10013404 0x50003000 s eq_refl eq_refl eq_refl eq_refl E) as (q & O & _ & R).
  rewrite O in L. cbn in L. rewrite R in L. vm_compute in L. discriminate.
Qed.

Lemma walks_overrun : ~ forall l, Forall (xl_ok false) l ->
  decode10 true [JInsn (load10 GUEST l 0x10123404 0x50123000)] <> HErr HOob.
Proof.
  intros H. pose (y := xl_of false 1 2 (walk64k 0x70000 0x50123000)). apply (H [y; y; y]).
  - assert (X : xl_ok false y).
    { apply xl_check. vm_compute. reflexivity. }
    repeat constructor; exact X.
  - vm_compute. reflexivity.
Qed.

Lemma hypervisor_aborts : ~ forall msr, msr < 2 ^ 64 -> field 64 msr 0 19 <> 0xACEFF ->
  exists s, decode10 true [JInsn (load10 msr [xl_of false 1 2 (walk64k 0x70000 0x50123000)] 0x10123404 0x50123000)] = HOk s.
Proof.
  intros H. pose (D := decode10 true [JInsn (load10 0xB000000000000000 [xl_of false 1 2 (walk64k 0x70000 0x50123000)] 0x10123404 0x50123000)]).
  assert (L : match D with HErr (HXlate XAssert) => true | _ => false end = true) by (vm_compute; reflexivity).
  destruct (H 0xB000000000000000) as [s E]; [reflexivity|vm_compute; discriminate|].
  unfold D in L. rewrite E in L. discriminate L.
Qed.

(** A load pair. *)
Definition pair10 (d1 d2 : N) : insn10 :=
  mk_insn10 [] (Some (([], 0, 0), ([], 0x10123400), ([], 0x50123000 * 2 ^ 12))) [] [] 0xE8640008 0xE8640008 false 1 false
    ([], GUEST) None [(([], d1), ([], 0)); (([], d2), ([], 0))].
Lemma modes_differ : ~ forall d1 d2 s s', d1 < 2 ^ 64 -> d2 < 2 ^ 64 ->
  field 64 d1 0 19 <> 0xACEFF -> field 64 d2 0 19 <> 0xACEFF ->
  decode10 true [JInsn (pair10 d1 d2)] = HOk s -> decode10 false [JInsn (pair10 d1 d2)] = HOk s' ->
  h_log s = h_log s'.
Proof.
  intros H. set (d := header (0x60000000 * 4) 2 8).
  assert (X : forall D v, match D with HOk s => h_log s | HErr _ => [] end = v -> v <> [] -> exists s, D = HOk s /\ h_log s = v).
  { intros [s|e] v E NE; [exists s; split; [reflexivity|exact E]|congruence]. }
  destruct (X (decode10 true [JInsn (pair10 0x2000 d)]) [(0x10123404, 0xE8640008)]) as (s & E & L); [vm_compute; reflexivity|discriminate|].
  destruct (X (decode10 false [JInsn (pair10 0x2000 d)]) [(0x10123404, 0xE8640008); (0x10123408, 0x60000000)]) as (s' & E' & L'); [vm_compute; reflexivity|discriminate|].
  assert (Y : h_log s = h_log s').
  { apply (H 0x2000 d); [reflexivity|reflexivity|vm_compute; discriminate|vm_compute; discriminate|exact E|exact E']. }
  rewrite Y, L' in L. discriminate L.
Qed.
