(** Register blocks and records at their layout positions (C51). *)
Require Import NArith ZArith List Bool Lia Arith.
Require Import ZifyBool ZifyN ZifyNat.
Require Import Verif.Word Verif.Codec_Types Verif.Branch_Model
  Verif.Reader_Model Verif.Reader_Spec Verif.Reader_Proofs Verif.Reader_Proofs2
  Verif.Layout_Spec Verif.Layout_Fields Verif.Layout_Proofs.
Import ListNotations.
Local Open Scope nat_scope.

(** ** Register block *)
Lemma regs_at_S b w o n :
  regs_at b w o (S n) = (uint_at b w o, u64_at b (o + w)) :: regs_at b w (o + (w + 8)) n.
Proof.
  unfold regs_at. cbn [seq map]. rewrite Nat.mul_0_l, Nat.add_0_r. f_equal.
  rewrite <- seq_shift, map_map. apply map_ext. intros i.
  replace (o + S i * (w + 8)) with (o + (w + 8) + i * (w + 8)) by lia. reflexivity.
Qed.
Lemma read_regs_in n : forall cap w o b v r, o <= length b ->
  read_regs n cap (get w) (skipn o b) = ROk (v, r) ->
  r = skipn (o + (w + 8) * n) b /\ v = regs_at b w o n /\ o + (w + 8) * n <= length b.
Proof.
  induction n; intros cap w o b v r L E; cbn [read_regs] in E.
  - apply ret_pos in E as [-> ->]. rewrite Nat.mul_0_r, Nat.add_0_r. auto.
  - step E i. apply get_in in E0 as (-> & -> & L1); [|lia].
    destruct cap; [discriminate|]. step E x. apply get_in in E0 as (-> & -> & L2); [|lia].
    step E l. rewrite <- Nat.add_assoc in E0. apply IHn in E0 as (-> & -> & L3); [|lia].
    apply ret_pos in E as [-> ->]. rewrite regs_at_S. repeat split; [|lia]. f_equal. lia.
Qed.
Lemma read_regs_at n : forall cap w o b, n <= cap -> o + (w + 8) * n <= length b ->
  read_regs n cap (get w) (skipn o b) = ROk (regs_at b w o n, skipn (o + (w + 8) * n) b).
Proof.
  induction n; intros cap w o b Hc L; cbn [read_regs].
  - unfold ret. do 2 f_equal. f_equal. lia.
  - destruct cap; [lia|]. erewrite bind_at by (apply get_at; lia).
    erewrite bind_at by (apply get_at; lia). rewrite <- Nat.add_assoc.
    erewrite bind_at by (apply IHn; lia). rewrite regs_at_S. unfold ret. do 2 f_equal. f_equal. lia.
Qed.

Lemma opt8_in c o b v r : o <= length b -> opt c get8 0%N (skipn o b) = ROk (v, r) ->
  r = skipn (o + len c 1) b /\ v = (if c then byte_at b o else 0%N) /\ o + len c 1 <= length b.
Proof.
  intros L E. apply opt_get_in in E as (-> & -> & L1); [|exact L]. now rewrite be_val1.
Qed.
Lemma get8_in o b v r : o <= length b -> get8 (skipn o b) = ROk (v, r) ->
  r = skipn (o + 1) b /\ v = byte_at b o /\ o + 1 <= length b.
Proof. intros L E. apply get_in in E as (-> & -> & L1); [|exact L]. now rewrite be_val1. Qed.

Lemma regs_layout version b o g r : o <= length b ->
  do_parse_regs version (skipn o b) = ROk (g, r) ->
  let v7 := (0x7000000 <=? version)%N in
  g = regs_spec b o v7 /\ r = skipn (regs_end b o v7) b /\ regs_end b o v7 <= length b.
Proof.
  intros L E. unfold do_parse_regs in E. cbv zeta in E |- *.
  set (v7 := (0x7000000 <=? version)%N) in *. clearbody v7.
  step E gi. apply get8_in in E0 as (-> & H1 & L1); [|lia].
  step E fi. apply get8_in in E0 as (-> & H2 & L2); [|lia].
  step E vmi. apply get8_in in E0 as (-> & H3 & L3); [|lia].
  step E vsi. apply opt8_in in E0 as (-> & H4 & L4); [|lia].
  step E si. apply get8_in in E0 as (-> & H5 & L5); [|lia].
  step E go. apply get8_in in E0 as (-> & H6 & L6); [|lia].
  step E fo. apply get8_in in E0 as (-> & H7 & L7); [|lia].
  step E vmo. apply get8_in in E0 as (-> & H8 & L8); [|lia].
  step E vso. apply opt8_in in E0 as (-> & H9 & L9); [|lia].
  step E so. apply get8_in in E0 as (-> & H10 & L10); [|lia].
  assert (A1 : N.to_nat gi = n_gi b o) by (now rewrite H1).
  assert (A2 : N.to_nat fi = n_fi b o) by (now rewrite H2).
  assert (A3 : N.to_nat vmi = n_vmi b o) by (rewrite H3; unfold n_vmi; do 2 f_equal; lia).
  assert (A4 : N.to_nat vsi = n_vsi b o v7)
    by (rewrite H4; unfold n_vsi; destruct v7; [do 2 f_equal; lia|reflexivity]).
  set (k := len v7 1) in *.
  assert (A5 : N.to_nat si = n_si b o v7) by (rewrite H5; unfold n_si; fold k; do 2 f_equal; lia).
  assert (A6 : N.to_nat go = n_go b o v7) by (rewrite H6; unfold n_go; fold k; do 2 f_equal; lia).
  assert (A7 : N.to_nat fo = n_fo b o v7) by (rewrite H7; unfold n_fo; fold k; do 2 f_equal; lia).
  assert (A8 : N.to_nat vmo = n_vmo b o v7) by (rewrite H8; unfold n_vmo; fold k; do 2 f_equal; lia).
  assert (A9 : N.to_nat vso = n_vso b o v7).
  { rewrite H9. unfold n_vso. fold k. destruct v7; [|reflexivity]. do 2 f_equal. lia. }
  assert (A10 : N.to_nat so = n_so b o v7) by (rewrite H10; unfold n_so; fold k; do 2 f_equal; lia).
  clear H1 H2 H3 H4 H5 H6 H7 H8 H9 H10.
  match type of E with context [skipn ?a b] => replace a with (o_gi o v7) in *
    by (unfold o_gi; fold k; lia) end.
  rewrite A1, A2, A5, A6, A7, A10 in E.
  step E gin. apply read_regs_in in E0 as (-> & -> & M1); [|lia].
  change (o_gi o v7 + _) with (o_fi b o v7) in *.
  step E fin. apply read_regs_in in E0 as (-> & -> & M2); [|lia].
  step E u1. apply skip_in in E0 as (-> & M3); [|lia].
  step E u2. apply skip_in in E0 as (-> & M4); [|lia].
  match type of E with context [skipn ?a b] => replace a with (o_si b o v7) in *
    by (unfold o_si; rewrite <- A3, <- A4; lia) end.
  step E sin. apply read_regs_in in E0 as (-> & -> & M5); [|lia].
  change (o_si b o v7 + _) with (o_go b o v7) in *.
  step E gout. apply read_regs_in in E0 as (-> & -> & M6); [|lia].
  change (o_go b o v7 + _) with (o_fo b o v7) in *.
  step E fout. apply read_regs_in in E0 as (-> & -> & M7); [|lia].
  step E u3. apply skip_in in E0 as (-> & M8); [|lia].
  step E u4. apply skip_in in E0 as (-> & M9); [|lia].
  match type of E with context [skipn ?a b] => replace a with (o_so b o v7) in *
    by (unfold o_so; rewrite <- A8, <- A9; lia) end.
  step E sout. apply read_regs_in in E0 as (-> & -> & M10); [|lia].
  change (o_so b o v7 + _) with (regs_end b o v7) in *.
  apply ret_pos in E as [-> ->]. repeat split; [|lia].
  unfold regs_spec. rewrite <- A3, <- A4, <- A8, <- A9, !N2Nat.id. reflexivity.
Qed.

Lemma regs_accepts version b o :
  (let h := (4 + len (0x7000000 <=? version)%N 1)%nat in
   byte_at b o <= 32 /\ byte_at b (o + 1)%nat <= 3 /\ byte_at b (o + h - 1)%nat <= 4 /\
   byte_at b (o + h)%nat <= 32 /\ byte_at b (o + h + 1)%nat <= 3 /\
   byte_at b (o + h + h - 1)%nat <= 4)%N ->
  regs_end b o (0x7000000 <=? version)%N <= length b ->
  exists g, do_parse_regs version (skipn o b) = ROk (g, skipn (regs_end b o (0x7000000 <=? version)%N) b).
Proof.
  intros HC L. unfold do_parse_regs. cbv zeta in *.
  set (v7 := (0x7000000 <=? version)%N) in *. clearbody v7.
  pose proof L as L1. unfold regs_end in L1.
  assert (L2 : o_so b o v7 <= length b) by lia. pose proof L2 as L3. unfold o_so in L3.
  assert (L4 : o_fo b o v7 <= length b) by lia. pose proof L4 as L5. unfold o_fo in L5.
  assert (L6 : o_go b o v7 <= length b) by lia. pose proof L6 as L7. unfold o_go in L7.
  assert (L8 : o_si b o v7 <= length b) by lia. pose proof L8 as L9. unfold o_si in L9.
  assert (L10 : o_fi b o v7 <= length b) by lia. pose proof L10 as L11. unfold o_fi in L11.
  assert (L12 : o_gi o v7 <= length b) by lia. pose proof L12 as L13. unfold o_gi in L13.
  assert (A5 : byte_at b (o + 1 + 1 + 1 + len v7 1) = byte_at b (o + (4 + len v7 1) - 1)) by (f_equal; lia).
  unfold n_gi, n_fi, n_vmi, n_si, n_go, n_fo, n_vmo, n_so in *.
  do 3 erewrite bind_at by (apply get_at; lia).
  erewrite bind_at by (apply opt_get_at; lia).
  do 4 erewrite bind_at by (apply get_at; lia).
  erewrite bind_at by (apply opt_get_at; lia).
  erewrite bind_at by (apply get_at; lia).
  rewrite !be_val1.
  set (k := len v7 1) in *.
  replace (o + 1 + 1 + 1 + k) with (o + (4 + k) - 1) by lia.
  replace (o + (4 + k) - 1 + 1) with (o + (4 + k)) by lia.
  replace (o + (4 + k) + 1 + 1 + 1 + k) with (o + (4 + k) + (4 + k) - 1) by lia.
  replace (o + (4 + k) + (4 + k) - 1 + 1) with (o_gi o v7) by (unfold o_gi; fold k; lia).
  replace (o + 1 + 1 + 1) with (o + 3) by lia.
  replace (o + (4 + k) + 1 + 1 + 1) with (o + (4 + k) + 3) by lia.
  replace (o + 1 + 1) with (o + 2) by lia.
  replace (o + (4 + k) + 1 + 1) with (o + (4 + k) + 2) by lia.
  assert (V1 : N.to_nat (if v7 then byte_at b (o + 3) else 0%N) = n_vsi b o v7) by (unfold n_vsi; now destruct v7).
  assert (V2 : N.to_nat (if v7 then byte_at b (o + (4 + k) + 3) else 0%N) = n_vso b o v7)
    by (unfold n_vso; fold k; now destruct v7).
  erewrite bind_at by (apply read_regs_at; lia).
  change (o_gi o v7 + _) with (o_fi b o v7).
  erewrite bind_at by (apply read_regs_at; lia).
  erewrite bind_at by (apply skip_at; lia).
  erewrite bind_at by (apply skip_at; lia).
  match goal with |- context [skipn ?a b] => replace a with (o_si b o v7)
    by (unfold o_si, n_fi, n_vmi; lia) end.
  erewrite bind_at by (apply read_regs_at; lia).
  replace (o_si b o v7 + _) with (o_go b o v7) by (unfold o_go, n_si; fold k; lia).
  erewrite bind_at by (apply read_regs_at; lia).
  replace (o_go b o v7 + _) with (o_fo b o v7) by (unfold o_fo, n_go; fold k; lia).
  erewrite bind_at by (apply read_regs_at; lia).
  erewrite bind_at by (apply skip_at; lia).
  erewrite bind_at by (apply skip_at; lia).
  match goal with |- context [skipn ?a b] => replace a with (o_so b o v7)
    by (unfold o_so, n_fo, n_vmo; fold k; lia) end.
  erewrite bind_at by (apply read_regs_at; lia).
  eexists. unfold ret. reflexivity.
Qed.
