(** C66: statements from the checks. *)
Require Import NArith List Bool String Lia Arith.
From Coq Require Import ZifyN ZifyNat ZifyBool.
Require Import Verif.Word Verif.Opcode_Table Verif.Stats_Model Verif.Stats_Spec Verif.Stats_Proofs2.
Require Import Verif.Opcode_Spec Verif.Opcode_Proofs Verif.Opcode_Proofs2.
Require Import Verif.Branch_Model Verif.Step_Model Verif.Storage_Spec Verif.Reader_Model.
Import ListNotations.
Local Notation length := List.length.
Local Open Scope N_scope.

Lemma one_of_iff : forall n l, one_of n l = true <-> In n l.
Proof.
  intros n l. unfold one_of. rewrite existsb_exists. split.
  - intros (x & Hx & E). apply String.eqb_eq in E. subst x. exact Hx.
  - intros H. exists n. split; [exact H|apply String.eqb_refl].
Qed.
Lemma one_of_not : forall n l, one_of n l = false <-> ~ In n l.
Proof. intros n l. rewrite <- one_of_iff. destruct (one_of n l); split; congruence. Qed.

(** ** The table *)
Lemma table_length : length opcodes = 3408%nat.
Proof. rewrite flat_eq. vm_compute. reflexivity. Qed.
Lemma table_wf : forall e, In e opcodes ->
  oc_mask e < 2 ^ 32 /\ N.land (oc_opcode e) (oc_mask e) = oc_opcode e
  /\ oc_mask e / 2 ^ 26 = 63.
Proof.
  intros e He. pose proof (proj1 (Forall_forall _ _) table_proper e He) as Hp. cbv beta in Hp.
  pose proof Hp as Hp'. unfold proper in Hp. apply andb_true_iff in Hp as [Hp Hc]. apply andb_true_iff in Hp as [Hm Ho].
  apply N.ltb_lt in Hm. apply N.eqb_eq in Ho, Hc. split; [exact Hm|]. split.
  - clear - Ho. apply N.bits_inj. intros i. rewrite N.land_spec.
    pose proof (f_equal (fun x => N.testbit x i) Ho) as Hi. cbn beta in Hi. rewrite N.ldiff_spec, N.bits_0 in Hi.
    destruct (N.testbit (oc_opcode e) i), (N.testbit (oc_mask e) i); cbn in *; congruence.
  - rewrite <- N.shiftr_div_pow2. rewrite <- (major_masked (oc_mask e) 0xfc000000 Hm eq_refl), Hc. reflexivity.
Qed.
Lemma table_covers : Forall covers ppc_opcodes.
Proof.
  unfold ppc_opcodes. apply Forall_forall. intros p Hp. apply in_map_iff in Hp as (e & <- & He).
  destruct (table_wf e He) as (_ & _ & Hc). unfold covers, po_of. cbn [po_mask]. rewrite Hc. reflexivity.
Qed.
Fixpoint ascending (l : list N) : bool :=
  match l with
  | a :: ((b :: _) as r) => (a <=? b) && ascending r
  | _ => true
  end.
Lemma ascending_le : forall l i j a b, ascending l = true -> (i < j)%nat ->
  nth_error l i = Some a -> nth_error l j = Some b -> a <= b.
Proof.
  assert (H0 : forall l a, ascending (a :: l) = true -> forall x, In x l -> a <= x).
  { induction l as [|b l IH]; intros a H x Hx; [destruct Hx|].
    change ((a <=? b) && ascending (b :: l) = true) in H. apply andb_true_iff in H as [Hab Hr].
    apply N.leb_le in Hab. destruct Hx as [<-|Hx]; [exact Hab|]. specialize (IH b Hr x Hx). lia. }
  induction l as [|x l IH]; intros i j a b H Hij Ha Hb; [destruct i; discriminate Ha|].
  destruct j as [|j]; [lia|]. cbn [nth_error] in Hb. destruct i as [|i].
  - cbn in Ha. injection Ha as <-. apply (H0 l x H). eapply nth_error_In. exact Hb.
  - cbn [nth_error] in Ha. apply (IH i j); [|lia|exact Ha|exact Hb].
    destruct l as [|y l]; [reflexivity|]. change ((x <=? y) && ascending (y :: l) = true) in H.
    apply andb_true_iff in H as [_ H]. exact H.
Qed.
Lemma table_ascending : ascending (List.map (fun e => oc_opcode e / 2 ^ 26) opcodes) = true.
Proof. rewrite flat_eq. vm_compute. reflexivity. Qed.
Lemma table_sorted : forall i j a b, (i < j)%nat -> nth_error opcodes i = Some a -> nth_error opcodes j = Some b ->
  oc_opcode a / 2 ^ 26 <= oc_opcode b / 2 ^ 26.
Proof.
  intros i j a b Hij Ha Hb.
  exact (ascending_le _ i j _ _ table_ascending Hij (map_nth_error (fun e => oc_opcode e / 2 ^ 26) i opcodes Ha)
           (map_nth_error (fun e => oc_opcode e / 2 ^ 26) j opcodes Hb)).
Qed.

(** ** Counts *)
Definition named (k : nat) (w : N) : bool :=
  match first_hit dialect (removelast ppc_opcodes) w with Some j => (k =? j)%nat | None => false end.
Lemma mix_real : forall insns, Forall (fun i => i < 2 ^ 32) insns ->
  exists x, mix_all ppc_opcodes dialect (mix_init ppc_opcodes) insns = Some x
  /\ (forall k, (k < length opcodes)%nat -> nth_error (x_count x) k =
        Some (N.of_nat (length (filter (fun w => match first_hit dialect (removelast ppc_opcodes) w with
                                                 | Some j => (k =? j)%nat | None => false end) insns)) mod 2 ^ 64))
  /\ x_unknown x = N.of_nat (length (filter (fun w => match mnemonic w with
                                                      | Some _ => false | None => true end) insns)) mod 2 ^ 64.
Proof.
  intros insns Hi.
  assert (L : length ppc_opcodes = length opcodes) by (unfold ppc_opcodes; apply map_length).
  destruct (mix_spec ppc_opcodes dialect insns table_covers) as (x & Hx & _ & Hc & Hu & _); [|exact Hi|].
  { rewrite L, table_length. reflexivity. }
  exists x. split; [exact Hx|]. split; [intros k Hk; apply Hc; rewrite L; exact Hk|].
  rewrite Hu. f_equal. f_equal. f_equal. apply filter_ext. intros w. unfold mnemonic.
  destruct (first_hit dialect (removelast ppc_opcodes) w) as [k|] eqn:E; [|reflexivity].
  assert (K : (k < length opcodes)%nat).
  { unfold ppc_opcodes in E. rewrite removelast_map in E.
    apply first_hit_split in E as (pre & e & post & Hs & <- & _).
    assert (R : nth_error (removelast opcodes) (length pre) = Some e).
    { rewrite Hs. rewrite nth_error_app2 by apply le_n. rewrite Nat.sub_diag. reflexivity. }
    apply removelast_nth in R. apply nth_error_Some. congruence. }
  apply nth_error_Some in K. destruct (nth_error opcodes k); [reflexivity|congruence].
Qed.

(** ** Decoders *)
Lemma branches_agree : forall w n, w < 2 ^ 32 -> mnemonic w = Some n ->
  (Branch_Model.is_branch w = true <-> In n (general_branches ++ conditional_branches ++ unconditional_branches ++ system_branches)).
Proof.
  intros w n Hw Hn. pose proof (mnemonic_good _ _ _ _ dep_branch branch_check w n Hw Hn) as G.
  unfold good_branch, branch_kind in G. cbv beta iota zeta in G.
  apply andb_true_iff in G as [G _]. apply andb_true_iff in G as [G _]. apply andb_true_iff in G as [G _].
  apply Bool.eqb_prop in G. unfold Branch_Model.is_branch. rewrite G. apply one_of_iff.
Qed.
Lemma conditions_agree : forall w n, w < 2 ^ 32 -> mnemonic w = Some n ->
  (In n conditional_branches -> is_conditional_branch w = true)
  /\ (In n (unconditional_branches ++ system_branches) -> is_unconditional_branch w = true).
Proof.
  intros w n Hw Hn. pose proof (mnemonic_good _ _ _ _ dep_branch branch_check w n Hw Hn) as G.
  unfold good_branch, branch_kind in G. cbv beta iota zeta in G.
  apply andb_true_iff in G as [G _]. apply andb_true_iff in G as [G Hu]. apply andb_true_iff in G as [_ Hc].
  split; intros H; apply one_of_iff in H.
  - rewrite H in Hc. exact Hc.
  - rewrite H in Hu. exact Hu.
Qed.
Lemma reserve_agree : forall w n, w < 2 ^ 32 -> mnemonic w = Some n ->
  (is_larx w = true <-> In n load_reserve) /\ (is_stcx w = true <-> In n store_conditional).
Proof.
  intros w n Hw Hn. pose proof (mnemonic_good _ _ _ _ dep_reserve reserve_check w n Hw Hn) as G.
  unfold good_reserve, reserve_kind in G. cbn [fst snd] in G. apply andb_true_iff in G as [G1 G2].
  apply Bool.eqb_prop in G1, G2. rewrite G1, G2. split; apply one_of_iff.
Qed.
Lemma rok_is : forall (a t : tlbie) b c, t_tlbie a = b -> t_local a = c -> ROk a = ROk t -> t_tlbie t = b /\ t_local t = c.
Proof. intros a t b c Hb Hc H. injection H as <-. split; assumption. Qed.
Lemma tlb_agree : forall w n lpid g, w < 2 ^ 32 -> mnemonic w = Some n ->
  (n <> "tlbie"%string -> n <> "tlbiel"%string -> annotate_tlbie lpid w g = ROk zero_tlbie)
  /\ (forall t, n = "tlbie"%string \/ n = "tlbiel"%string -> annotate_tlbie lpid w g = ROk t ->
      t_tlbie t = true /\ t_local t = String.eqb n "tlbiel").
Proof.
  intros w n lpid g Hw Hn. pose proof (mnemonic_good _ _ _ _ dep_tlb tlb_check w n Hw Hn) as G.
  unfold good_tlb, tlb_kind in G. cbn [fst snd] in G. apply andb_true_iff in G as [G1 G2].
  apply Bool.eqb_prop in G1, G2. unfold one_of in G1, G2. cbn [existsb] in G1, G2. rewrite orb_false_r in G1, G2.
  unfold annotate_tlbie. cbv zeta. split.
  - intros N1 N2. apply String.eqb_neq in N1, N2. rewrite N1 in G1. rewrite N2 in G2.
    destruct (OPCODE w =? 31); [|reflexivity]. cbn [andb negb] in *. rewrite G1, G2. reflexivity.
  - intros t Ht. assert (O : OPCODE w =? 31 = true /\ (SUB_OPCODE w =? 274) = String.eqb n "tlbiel"
                             /\ negb (SUB_OPCODE w =? 274) && negb (SUB_OPCODE w =? 306) = false).
    { clear - Ht G1 G2. revert G1 G2. generalize (OPCODE w =? 31), (SUB_OPCODE w =? 274), (SUB_OPCODE w =? 306).
      intros b1 b2 b3 G1 G2. destruct Ht as [-> | ->].
      - change (String.eqb "tlbie" "tlbie") with true in G1. change (String.eqb "tlbie" "tlbiel") with false in *.
        destruct b1, b2, b3; cbn in *; try discriminate G1; try discriminate G2; repeat split; reflexivity.
      - change (String.eqb "tlbiel" "tlbie") with false in G1. change (String.eqb "tlbiel" "tlbiel") with true in *.
        destruct b1, b2, b3; cbn in *; try discriminate G1; try discriminate G2; repeat split; reflexivity. }
    destruct O as (O1 & O2 & O3). rewrite O1, O3. cbn [negb]. rewrite <- O2. clear.
    destruct (g_gprs_out g) as [|[? rb] [|[? rs] [|? ?]]]; try discriminate.
    destruct (negb (R_ w =? 1)); [discriminate|].
    destruct (IS_ rb =? 0) eqn:EI; [|exact (rok_is _ _ _ _ eq_refl eq_refl)].
    destruct (AP rb =? 0); [exact (rok_is _ _ _ _ eq_refl eq_refl)|].
    destruct (AP rb =? 5); [exact (rok_is _ _ _ _ eq_refl eq_refl)|].
    destruct (AP rb =? 1); [exact (rok_is _ _ _ _ eq_refl eq_refl)|].
    destruct (AP rb =? 2); [exact (rok_is _ _ _ _ eq_refl eq_refl)|discriminate].
Qed.
Lemma storage_agree : forall w n, w < 2 ^ 32 -> mnemonic w = Some n ->
  match decode w with
  | Some i => n = i_name i \/ In (n, i_name i) storage_aliases
  | None => n = "lfdp"%string \/ ~ In n (List.map i_name isa_table ++ List.map fst storage_aliases)
  end.
Proof.
  intros w n Hw Hn. pose proof (mnemonic_good _ _ _ _ dep_storage storage_check w n Hw Hn) as G.
  unfold good_storage in G. destruct (decode w) as [i|].
  - unfold same_access in G. apply orb_true_iff in G as [G|G]; [left; apply String.eqb_eq; exact G|right].
    apply existsb_exists in G as ([a b] & Hin & G). apply andb_true_iff in G as [G1 G2]. cbn [fst snd] in G1, G2.
    apply String.eqb_eq in G1, G2. rewrite G1, G2. exact Hin.
  - apply orb_true_iff in G as [G|G]; [right|left; apply String.eqb_eq; exact G].
    apply negb_true_iff in G. apply one_of_not. exact G.
Qed.
Lemma never : forall w n, w < 2 ^ 32 -> In n never_counted -> mnemonic w <> Some n.
Proof.
  intros w n Hw Hin Hn.
  pose proof (mnemonic_good unit (fun _ => tt) (fun _ => 0) good_name (fun _ _ => eq_refl) name_check w n Hw Hn) as G.
  unfold good_name in G. apply negb_true_iff in G. apply one_of_not in G. exact (G Hin).
Qed.

(** ** Fixed patterns of the statistics *)
Lemma rebuild : forall w m, N.lor (N.ldiff w m) (N.land w m) = w.
Proof.
  intros w m. apply N.bits_inj. intros i. rewrite N.lor_spec, N.ldiff_spec, N.land_spec.
  destruct (N.testbit w i), (N.testbit m i); reflexivity.
Qed.
Lemma pattern_all : forall (p : N -> bool) v m, forallb (fun b => p (N.lor v b)) (submasks m) = true ->
  forall w, w < 2 ^ 32 -> N.ldiff w m = v -> p w = true.
Proof.
  intros p v m H w Hw Hv. rewrite <- (rebuild w m), Hv.
  exact (proj1 (forallb_forall (fun b => p (N.lor v b)) (submasks m)) H (N.land w m) (submasks_in w m Hw)).
Qed.
Definition called (n : string) (w : N) : bool :=
  match mnemonic w with Some x => String.eqb x n | None => false end.
Lemma called_is : forall n w, called n w = true -> mnemonic w = Some n.
Proof.
  intros n w. unfold called. generalize (mnemonic w). intros [x|] H; [|discriminate H].
  apply String.eqb_eq in H. rewrite H. reflexivity.
Qed.
Lemma land_ldiff : forall w k m, w < 2 ^ 32 -> m = N.ldiff 0xffffffff k -> N.land w k = N.ldiff w m.
Proof.
  intros w k m Hw ->. apply N.bits_inj. intros i. rewrite N.land_spec, !N.ldiff_spec.
  destruct (N.testbit w i) eqn:E; [|reflexivity]. pose proof (testbit_small w i Hw E) as Hi.
  change 0xffffffff with (N.ones 32). rewrite N.ones_spec_low by exact Hi. cbn [andb]. symmetry. apply negb_involutive.
Qed.
Lemma vrsave_check : forallb (fun b => called "mfvrsave" (N.lor 0x7c0042a6 b)) (submasks 0x01e00000) = true.
Proof. vm_compute. reflexivity. Qed.
Lemma timebase_check : forallb (fun b => called "mfsprg" (N.lor 0x7c0c42a6 b)) (submasks 0x03e00000) = true.
Proof. vm_compute. reflexivity. Qed.
Lemma vrsave : forall w, w < 2 ^ 32 -> N.land w 0xfe1fffff = 0x7c0042a6 -> mnemonic w = Some "mfvrsave"%string.
Proof.
  intros w Hw H. apply called_is. refine (pattern_all (called "mfvrsave") _ _ vrsave_check w Hw _).
  rewrite <- H. symmetry. apply land_ldiff; [exact Hw|reflexivity].
Qed.
Lemma timebase : forall w, w < 2 ^ 32 -> N.land w 0xfc1fffff = 0x7c0c42a6 -> mnemonic w = Some "mfsprg"%string.
Proof.
  intros w Hw H. apply called_is. refine (pattern_all (called "mfsprg") _ _ timebase_check w Hw _).
  rewrite <- H. symmetry. apply land_ldiff; [exact Hw|reflexivity].
Qed.

(** ** Branches to registers with reserved bits *)
Definition register_kind (w : N) : bool :=
  (OPCODE w =? 19) && ((SUB_OPCODE w =? 16) || (SUB_OPCODE w =? 528) || (SUB_OPCODE w =? 560))
  && negb (N.land (N.shiftr w 13) 7 =? 0).
Definition dm_register (p : N) : N := if p =? 19 then 0xfc00e7fe else 0xfc000000.
Lemma dep_register : forall w, w < 2 ^ 32 -> register_kind w = register_kind (N.land w (dm_register (N.shiftr w 26))).
Proof.
  intros w Hw. unfold register_kind, OPCODE. change (32 - 6) with 26. set (p := N.shiftr w 26). unfold dm_register.
  destruct (N.eqb_spec p 19) as [E19|N19].
  - rewrite (major_masked w 0xfc00e7fe Hw eq_refl). fold p. rewrite E19.
    unfold SUB_OPCODE. rewrite (shift_land w 0xfc00e7fe 13 7 eq_refl), (shift_land w 0xfc00e7fe 1 0x3ff eq_refl).
    reflexivity.
  - rewrite (major_masked w 0xfc000000 Hw eq_refl). fold p.
    destruct (N.eqb_spec p 19); [contradiction|]. reflexivity.
Qed.
Lemma register_check : check_all _ register_kind dm_register (fun _ k => negb k) [] (removelast flat) = true.
Proof. vm_compute. reflexivity. Qed.
Lemma register_branches : forall w n, w < 2 ^ 32 -> mnemonic w = Some n -> bits w 0 6 = 19 ->
  In (bits w 21 10) [16; 528; 560] -> bits w 16 3 = 0.
Proof.
  intros w n Hw Hn Ho Hs. pose proof (mnemonic_good _ _ _ _ dep_register register_check w n Hw Hn) as G.
  cbv beta in G. apply negb_true_iff in G. rewrite bits_shift in *. change (32 - 0 - 6) with 26 in Ho.
  change (32 - 21 - 10) with 1 in Hs. change (32 - 16 - 3) with 13. change (N.ones 6) with 0x3f in Ho.
  change (N.ones 10) with 0x3ff in Hs. change (N.ones 3) with 7.
  rewrite (major_land w Hw) in Ho. unfold register_kind, OPCODE, SUB_OPCODE in G. change (32 - 6) with 26 in G. rewrite Ho in G.
  change (19 =? 19) with true in G. cbn [andb] in G.
  destruct (N.eqb_spec (N.land (N.shiftr w 13) 7) 0) as [E|E]; [exact E|]. cbn [negb] in G. rewrite andb_true_r in G.
  apply orb_false_iff in G as [G G3]. apply orb_false_iff in G as [G1 G2]. exfalso.
  destruct Hs as [Hs|[Hs|[Hs|[]]]]; rewrite <- Hs in *; discriminate.
Qed.
