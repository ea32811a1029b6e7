(** The program's decoders against the opcode table. *)
Require Import NArith List Bool String Lia Arith.
From Coq Require Import ZifyN ZifyNat ZifyBool.
Require Import Verif.Word Verif.Opcode_Table Verif.Stats_Model Verif.Stats_Spec Verif.Opcode_Spec Verif.Opcode_Proofs.
Require Import Verif.Branch_Model Verif.Step_Model Verif.Storage_Spec Verif.Reader_Model.
Import ListNotations.
Local Notation length := List.length.
Local Open Scope N_scope.

(** ** Fields of masked words *)
Lemma shift_land : forall w m n k, N.land (N.shiftr m n) k = k -> N.land (N.shiftr (N.land w m) n) k = N.land (N.shiftr w n) k.
Proof.
  intros w m n k H. apply N.bits_inj. intros i. pose proof (f_equal (fun x => N.testbit x i) H) as Hi. cbn beta in Hi.
  rewrite !N.land_spec, !N.shiftr_spec in * by lia. rewrite N.land_spec.
  destruct (N.testbit w (i + n)), (N.testbit m (i + n)), (N.testbit k i); cbn in *; congruence.
Qed.
Lemma land_land : forall w m k, N.land m k = k -> N.land (N.land w m) k = N.land w k.
Proof. intros w m k H. rewrite <- N.land_assoc, H. reflexivity. Qed.
Lemma land_lt : forall w m, w < 2 ^ 32 -> N.land w m < 2 ^ 32.
Proof.
  intros w m H. destruct (N.eq_dec (N.land w m) 0) as [->|Hz]; [lia|].
  destruct (N.eq_dec w 0) as [->|]; [rewrite N.land_0_l in Hz; lia|].
  apply N.log2_lt_pow2; [lia|]. eapply N.le_lt_trans; [apply N.log2_land|].
  eapply N.le_lt_trans; [apply N.le_min_l|]. apply N.log2_lt_pow2; lia.
Qed.
Lemma major_land : forall w, w < 2 ^ 32 -> N.land (N.shiftr w 26) 0x3f = N.shiftr w 26.
Proof.
  intros w H. change 0x3f with (N.ones 6). rewrite N.land_ones, N.shiftr_div_pow2. apply N.mod_small.
  apply N.div_lt_upper_bound; [lia|]. exact H.
Qed.
Lemma major_masked : forall w m, w < 2 ^ 32 -> N.land (N.shiftr m 26) 0x3f = 0x3f ->
  N.shiftr (N.land w m) 26 = N.shiftr w 26.
Proof.
  intros w m H Hm. rewrite <- (major_land (N.land w m)) by (apply land_lt; exact H).
  rewrite shift_land by exact Hm. apply major_land. exact H.
Qed.

(** ** Branches *)
Definition dm_branch (p : N) : N :=
  if p =? 16 then 0xffe00000 else if p =? 19 then 0xffe007fe else 0xfc000000.
Definition branch_kind (w : N) : bool * bool := (is_conditional_branch w, is_unconditional_branch w).
Lemma dep_branch : forall w, w < 2 ^ 32 -> branch_kind w = branch_kind (N.land w (dm_branch (N.shiftr w 26))).
Proof.
  intros w Hw. unfold branch_kind, is_conditional_branch, is_unconditional_branch,
    branch_conditional_is_conditional, OPCODE. change (32 - 6) with 26. cbv zeta.
  set (p := N.shiftr w 26). unfold dm_branch.
  destruct (N.eqb_spec p 16) as [E16|N16].
  - rewrite (major_masked w 0xffe00000 Hw eq_refl). fold p. rewrite E16.
    unfold BO. rewrite (shift_land w 0xffe00000 21 0x1f eq_refl). reflexivity.
  - destruct (N.eqb_spec p 19) as [E19|N19].
    + rewrite (major_masked w 0xffe007fe Hw eq_refl). fold p. rewrite E19.
      unfold BO, SUB_OPCODE. rewrite (shift_land w 0xffe007fe 21 0x1f eq_refl), (shift_land w 0xffe007fe 1 0x3ff eq_refl).
      reflexivity.
    + rewrite (major_masked w 0xfc000000 Hw eq_refl). fold p.
      destruct (N.eqb_spec p 16); [contradiction|]. destruct (N.eqb_spec p 19); [contradiction|]. reflexivity.
Qed.
Definition branch_names : list string := general_branches ++ conditional_branches ++ unconditional_branches ++ system_branches.
Definition good_branch (n : string) (k : bool * bool) : bool :=
  let '(c, u) := k in
  Bool.eqb (c || u) (one_of n branch_names)
  && (if one_of n conditional_branches then c else true)
  && (if one_of n (unconditional_branches ++ system_branches) then u else true)
  && negb (c && u).
Definition branch_names_n : list string := Eval vm_compute in branch_names.
Lemma branch_check : check_all _ branch_kind dm_branch good_branch [] (removelast flat) = true.
Proof. vm_compute. reflexivity. Qed.

(** ** Load and reserve, store conditional *)
Definition dm_31 (p : N) : N := if p =? 31 then 0xfc0007ff else 0xfc000000.
Definition reserve_kind (w : N) : bool * bool := (is_larx w, is_stcx w).
Lemma masked_31 : forall w k, w < 2 ^ 32 -> N.land k 0xfc000000 = 0xfc000000 -> N.land 0xfc0007ff k = k ->
  forall v, N.shiftr v 26 = 31 -> N.land v k = v ->
  (N.land w k =? v) = (N.land (N.land w (dm_31 (N.shiftr w 26))) k =? v).
Proof.
  intros w k Hw Hk Hk2 v Hv Hvk. unfold dm_31. destruct (N.eqb_spec (N.shiftr w 26) 31) as [E|NE].
  - rewrite land_land by exact Hk2. reflexivity.
  - assert (X : forall x, x < 2 ^ 32 -> N.shiftr x 26 <> 31 -> N.land x k <> v).
    { intros x Hx Hn Hxv. apply Hn. rewrite <- Hv, <- Hxv. symmetry. apply major_masked; [exact Hx|].
      apply N.bits_inj. intros i. pose proof (f_equal (fun y => N.testbit y (i + 26)) Hk) as Hi. cbn beta in Hi.
      rewrite N.land_spec, N.shiftr_spec by lia. rewrite N.land_spec in Hi.
      destruct (N.testbit 0x3f i) eqn:T; [|apply andb_false_r].
      assert (I : i < 6).
      { destruct (N.ltb_spec i 6) as [|G]; [assumption|].
        rewrite (N.bits_above_log2 0x3f i) in T by (change (N.log2 0x3f) with 5; lia). discriminate T. }
      assert (T2 : N.testbit 0xfc000000 (i + 26) = true).
      { assert (J : i = 0 \/ i = 1 \/ i = 2 \/ i = 3 \/ i = 4 \/ i = 5) by lia.
        destruct J as [->|[->|[->|[->|[->| ->]]]]]; reflexivity. }
      rewrite T2 in Hi. rewrite andb_true_r in *. exact Hi. }
    rewrite (proj2 (N.eqb_neq _ _) (X w Hw NE)). symmetry. apply N.eqb_neq. apply X; [apply land_lt; exact Hw|].
    rewrite major_masked; [exact NE|exact Hw|reflexivity].
Qed.
Lemma dep_reserve : forall w, w < 2 ^ 32 -> reserve_kind w = reserve_kind (N.land w (dm_31 (N.shiftr w 26))).
Proof.
  intros w Hw. unfold reserve_kind, is_larx, is_stcx. cbv zeta. f_equal.
  - rewrite <- !masked_31 by (try exact Hw; reflexivity). reflexivity.
  - rewrite <- !masked_31 by (try exact Hw; reflexivity). reflexivity.
Qed.
Definition good_reserve (n : string) (k : bool * bool) : bool :=
  Bool.eqb (fst k) (one_of n load_reserve) && Bool.eqb (snd k) (one_of n store_conditional).
Lemma reserve_check : check_all _ reserve_kind dm_31 good_reserve [] (removelast flat) = true.
Proof. vm_compute. reflexivity. Qed.

(** ** tlbie *)
Definition tlb_kind (w : N) : bool * bool :=
  ((OPCODE w =? 31) && (SUB_OPCODE w =? 306), (OPCODE w =? 31) && (SUB_OPCODE w =? 274)).
Lemma dep_tlb : forall w, w < 2 ^ 32 -> tlb_kind w = tlb_kind (N.land w (dm_31 (N.shiftr w 26))).
Proof.
  intros w Hw. unfold tlb_kind, OPCODE, dm_31. destruct (N.eqb_spec (N.shiftr w 26) 31) as [E|NE].
  - rewrite (major_masked w 0xfc0007ff Hw eq_refl), E. unfold SUB_OPCODE.
    rewrite (shift_land w 0xfc0007ff 1 0x3ff eq_refl). reflexivity.
  - rewrite (major_masked w 0xfc000000 Hw eq_refl). destruct (N.eqb_spec (N.shiftr w 26) 31); [contradiction|]. reflexivity.
Qed.
Definition good_tlb (n : string) (k : bool * bool) : bool :=
  Bool.eqb (fst k) (one_of n ["tlbie"%string]) && Bool.eqb (snd k) (one_of n ["tlbiel"%string]).
Lemma tlb_check : check_all _ tlb_kind dm_31 good_tlb [] (removelast flat) = true.
Proof. vm_compute. reflexivity. Qed.

(** ** Storage accesses *)
Definition dm_storage (p : N) : N :=
  if p =? 31 then 0xfc0007fe else if (p =? 57) || (p =? 58) || (p =? 62) then 0xfc000003
  else if p =? 61 then 0xfc000007 else 0xfc000000.
Definition ext_mask (e : ext) : N :=
  match e with NoExt => 0 | Xo10 _ => 0x7fe | Xo2 _ => 3 | Xo3 _ => 7 end.
Definition ext_ok (i : isa) : bool := N.land (dm_storage (i_op i)) (ext_mask (i_ext i)) =? ext_mask (i_ext i).
Lemma ext_all : forallb ext_ok isa_table = true.
Proof. vm_compute. reflexivity. Qed.
Lemma bits_shift : forall w a n, bits w a n = N.land (N.shiftr w (32 - a - n)) (N.ones n).
Proof. intros w a n. unfold bits. rewrite N.land_ones, N.shiftr_div_pow2. reflexivity. Qed.
Lemma find_ext' : forall A (f g : A -> bool) l, (forall x, In x l -> f x = g x) -> find f l = find g l.
Proof.
  induction l as [|a l IH]; intros H; [reflexivity|]. cbn. rewrite (H a) by (left; reflexivity).
  rewrite IH; [reflexivity|]. intros x Hx. apply H. right. exact Hx.
Qed.
Lemma dm_storage_major : forall p, N.land (N.shiftr (dm_storage p) 26) 0x3f = 0x3f.
Proof.
  intros p. unfold dm_storage. destruct (p =? 31); [reflexivity|]. destruct ((p =? 57) || (p =? 58) || (p =? 62)); [reflexivity|].
  destruct (p =? 61); reflexivity.
Qed.
Lemma dep_storage : forall w, w < 2 ^ 32 -> decode w = decode (N.land w (dm_storage (N.shiftr w 26))).
Proof.
  intros w Hw. unfold decode. apply find_ext'. intros i Hi.
  pose proof (proj1 (forallb_forall _ _) ext_all i Hi) as Ho. unfold ext_ok in Ho. apply N.eqb_eq in Ho.
  unfold Storage_Spec.matches.
  assert (B0 : forall m, N.land (N.shiftr m 26) 0x3f = 0x3f -> bits (N.land w m) 0 6 = bits w 0 6).
  { intros m Hm. rewrite !bits_shift. change (32 - 0 - 6) with 26. change (N.ones 6) with 0x3f. apply shift_land. exact Hm. }
  rewrite B0 by apply dm_storage_major.
  assert (P : bits w 0 6 = N.shiftr w 26) by (rewrite bits_shift; apply (major_land w Hw)).
  rewrite P. destruct (N.eqb_spec (N.shiftr w 26) (i_op i)) as [E|]; [|reflexivity]. rewrite E. cbn [andb].
  destruct (i_ext i) as [|v|v|v]; cbn [ext_mask] in Ho; [reflexivity| | |];
    rewrite !bits_shift; f_equal; symmetry; apply shift_land.
  - change (32 - 21 - 10) with 1. change (N.ones 10) with (N.shiftr 0x7fe 1).
    rewrite <- N.shiftr_land, Ho. reflexivity.
  - change (32 - 30 - 2) with 0. rewrite N.shiftr_0_r. exact Ho.
  - change (32 - 29 - 3) with 0. rewrite N.shiftr_0_r. exact Ho.
Qed.
Definition same_access (n m : string) : bool :=
  String.eqb n m || existsb (fun p => String.eqb n (fst p) && String.eqb m (snd p)) storage_aliases.
Definition storage_names : list string := List.map i_name isa_table ++ List.map fst storage_aliases.
Definition good_storage (n : string) (d : option isa) : bool :=
  match d with
  | Some i => same_access n (i_name i)
  | None => negb (one_of n storage_names) || String.eqb n "lfdp"
  end.
Lemma storage_check : check_all _ decode dm_storage good_storage [] (removelast flat) = true.
Proof. vm_compute. reflexivity. Qed.

(** ** Names that no word has *)
Definition good_name (n : string) (_ : unit) : bool := negb (one_of n never_counted).
Lemma name_check : check_all _ (fun _ => tt) (fun _ => 0) good_name [] (removelast flat) = true.
Proof. vm_compute. reflexivity. Qed.
