(** Reading back one stored record and the header. *)
Require Import Arith NArith List Bool Lia ZifyBool ZifyN ZifyNat.
Require Import Verif.Word Verif.Codec_Types Verif.Writer_Model Verif.Writer_Proofs
  Verif.Branch_Model Verif.Reader_Model Verif.Codec_Spec Verif.Codec_Proofs.
Import ListNotations.
Local Open Scope N_scope.

(** ** The stored bytes, explicitly *)
Lemma when_eok c l : when c (eok l) = inr (wb c l).
Proof. destruct c; reflexivity. Qed.
Lemma when_inr c l : when c (inr l) = inr (wb c l).
Proof. destruct c; reflexivity. Qed.
Lemma eapp_inr a b : eapp (inr a) (inr b) = inr (a ++ b).
Proof. reflexivity. Qed.

Definition ic := iar_change.
Lemma disc_eq p c : discontinuity p c = iar_change p c.
Proof. unfold discontinuity, iar_change, add64. rewrite w64_pow. reflexivity. Qed.

Definition stored (p c : qrec) : list N :=
  put32 (q_insn p) ++ put16 (rec_flags p c) ++ put16 (rec_flags2 p c) ++
  wb (have_flags3 p c) (put16 (rec_flags3 p c)) ++
  wb (rec_is_branch p c) (put8 0 ++ put8 0 ++ put8 (term_code p)) ++
  wb (q_data_addr_valid p) (put64 (q_data_addr p)) ++
  wb (data_walk p) (emit_walk (q_radix_data p)) ++
  wb (q_data_ra_valid p) (put32 (rpn_of (q_data_ra p) (optb (q_data_ps_valid p) (q_data_ps p)))) ++
  wb (iar_change p c) (put64 (q_insn_addr c)) ++
  wb (insn_walk p c) (emit_walk (q_radix_insn c)) ++
  wb (q_insn_ra_valid c && iar_change p c)
     (put32 (rpn_of (q_insn_ra c) (optb (q_insn_ps_valid c) (q_insn_ps c)))) ++
  wb (q_insn_ps_valid c && iar_change p c) (put8 (u8 (q_insn_ps c))) ++
  wb (q_ginsn_ps_valid c && iar_change p c) (put8 (u8 (q_ginsn_ps c))) ++
  wb (q_data_ps_valid p) (put8 (u8 (q_data_ps p))) ++
  wb (q_gdata_ps_valid p) (put8 (u8 (q_gdata_ps p))) ++ [].

Lemma store_record_stored p c :
  shifts_ok p -> shifts_ok c ->
  (q_data_ra_valid p = true -> storable (q_radix_data p)) ->
  (q_insn_ra_valid c && iar_change p c = true -> storable (q_radix_insn c)) ->
  store_record p c = inr (stored p c).
Proof.
  intros (_ & _ & Sd & _) (Si & _) D I. unfold store_record.
  assert (A : (if q_data_ra_valid p then walk_assert (q_radix_data p) else true)
     && (if q_insn_ra_valid c && iar_change p c then walk_assert (q_radix_insn c) else true) = true).
  { apply andb_true_iff. split.
    - destruct (q_data_ra_valid p); [|reflexivity]. now apply storable_assert, D.
    - destruct (_ && _); [|reflexivity]. now apply storable_assert, I. }
  rewrite A. clear A. cbn [econcat].
  rewrite (put_rpn_ok _ _ _ Sd), (put_rpn_ok _ _ _ Si), !when_eok, ?when_inr. unfold eok.
  rewrite !eapp_inr. reflexivity.
Qed.

(** ** Flags *)
Ltac flag_tac :=
  repeat match goal with |- context [fl ?b _] => is_var b; destruct b end; reflexivity.

Section Flags.
Variables p c : qrec.
Notation f1 := (rec_flags p c).
Notation f2 := (rec_flags2 p c).

Ltac f1_tac :=
  unfold rec_flags, rec_is_branch;
  destruct (q_data_addr_valid p), (q_data_ra_valid p), (q_insn_ra_valid c), (iar_change p c), (q_branch p);
  reflexivity.
Lemma f1_mod : f1 mod 2 ^ 16 = f1. Proof. f1_tac. Qed.
Lemma f1_ext : has f1 F_EXT = true. Proof. f1_tac. Qed.
Lemma f1_unh : N.land f1 UNHANDLED_FLAGS =? 0 = true. Proof. f1_tac. Qed.
Lemma f1_node : has f1 F_NODE = rec_is_branch p c. Proof. f1_tac. Qed.
Lemma f1_term : has f1 F_TERMINATION = rec_is_branch p c. Proof. f1_tac. Qed.
Lemma f1_proc : has f1 F_PROCESSOR = false. Proof. f1_tac. Qed.
Lemma f1_daddr : has f1 F_DATA_ADDRESS = q_data_addr_valid p. Proof. f1_tac. Qed.
Lemma f1_dvsid : has f1 F_DATA_VSID = false. Proof. f1_tac. Qed.
Lemma f1_drpn : has f1 F_DATA_RPN = q_data_ra_valid p. Proof. f1_tac. Qed.
Lemma f1_iar : has f1 F_IAR = iar_change p c. Proof. f1_tac. Qed.
Lemma f1_ivsid : has f1 F_IAR_VSID = false. Proof. f1_tac. Qed.
Lemma f1_irpn : has f1 F_IAR_RPN = q_insn_ra_valid c && iar_change p c. Proof. f1_tac. Qed.
Lemma f1_reg : has f1 F_REGISTER_TRACE = false. Proof. f1_tac. Qed.

Ltac f2_tac :=
  unfold rec_flags2;
  destruct (have_flags3 p c), (q_data_ps_valid p), (q_gdata_ps_valid p),
    (q_insn_ps_valid c && iar_change p c), (q_ginsn_ps_valid c && iar_change p c); reflexivity.
Lemma f2_mod : f2 mod 2 ^ 16 = f2. Proof. f2_tac. Qed.
Lemma f2_ext2 : has f2 F2_EXT2 = have_flags3 p c. Proof. f2_tac. Qed.
Lemma f2_unh : N.land f2 UNHANDLED_FLAGS2 =? 0 = true. Proof. f2_tac. Qed.
Lemma f2_srpn : has f2 F2_SEQ_RPN = false. Proof. f2_tac. Qed.
Lemma f2_err : has f2 F2_ERROR_CODE = false. Proof. f2_tac. Qed.
Lemma f2_sps : has f2 F2_SEQ_PAGE_SIZE = false. Proof. f2_tac. Qed.
Lemma f2_ips : has f2 F2_IAR_PAGE_SIZE = q_insn_ps_valid c && iar_change p c. Proof. f2_tac. Qed.
Lemma f2_dps : has f2 F2_DATA_PAGE_SIZE = q_data_ps_valid p. Proof. f2_tac. Qed.
Lemma f2_igps : has f2 F2_INSN_GPAGE_SIZE = q_ginsn_ps_valid c && iar_change p c. Proof. f2_tac. Qed.
Lemma f2_dgps : has f2 F2_DATA_GPAGE_SIZE = q_gdata_ps_valid p. Proof. f2_tac. Qed.
End Flags.

Lemma single_mode_cases r : single_mode r = 1 \/ single_mode r = 3.
Proof. unfold single_mode. destruct (_ =? _); auto. Qed.

Lemma f3_mod p c : rec_flags3 p c mod 2 ^ 16 = rec_flags3 p c.
Proof.
  unfold rec_flags3.
  destruct (data_walk p), (kind (q_radix_data p)), (insn_walk p c), (kind (q_radix_insn c));
  destruct (single_mode_cases (q_radix_data p)) as [Ed|Ed],
           (single_mode_cases (q_radix_insn c)) as [Ei|Ei]; rewrite ?Ed, ?Ei; reflexivity.
Qed.
Lemma f3_host_data p c : mode (rec_flags3 p c) SH_HOST_DATA = MODE_RADIX.
Proof.
  unfold rec_flags3.
  destruct (data_walk p), (kind (q_radix_data p)), (insn_walk p c), (kind (q_radix_insn c));
  destruct (single_mode_cases (q_radix_data p)) as [Ed|Ed],
           (single_mode_cases (q_radix_insn c)) as [Ei|Ei]; rewrite ?Ed, ?Ei; reflexivity.
Qed.
Lemma f3_host_insn p c : mode (rec_flags3 p c) SH_HOST_INSN = MODE_RADIX.
Proof.
  unfold rec_flags3.
  destruct (data_walk p), (kind (q_radix_data p)), (insn_walk p c), (kind (q_radix_insn c));
  destruct (single_mode_cases (q_radix_data p)) as [Ed|Ed],
           (single_mode_cases (q_radix_insn c)) as [Ei|Ei]; rewrite ?Ed, ?Ei; reflexivity.
Qed.
Lemma f3_guest_insn p c :
  insn_walk p c = true ->
  mode (rec_flags3 p c) SH_GUEST_INSN = if single (q_radix_insn c) then MODE_NOT_DEFINED else MODE_RADIX.
Proof.
  unfold rec_flags3. intros I. rewrite I.
  pose proof (kind_single (q_radix_insn c)) as K.
  destruct (data_walk p), (kind (q_radix_data p)), (kind (q_radix_insn c)), (single (q_radix_insn c));
  destruct (single_mode_cases (q_radix_data p)) as [Ed|Ed],
           (single_mode_cases (q_radix_insn c)) as [Ei|Ei]; rewrite ?Ed, ?Ei; try reflexivity; exfalso; intuition discriminate.
Qed.
Lemma f3_guest_data p c :
  data_walk p = true -> ~ (single (q_radix_data p) = false /\ insn_walk p c = true /\ single (q_radix_insn c) = true) ->
  mode (rec_flags3 p c) SH_GUEST_DATA =
  if single (q_radix_data p)
  then (if data_kind p c =? GUEST_REAL then MODE_REAL else MODE_NOT_DEFINED) else MODE_RADIX.
Proof.
  unfold rec_flags3, data_kind. intros I. rewrite I, disc_eq.
  unfold insn_walk.
  pose proof (kind_single (q_radix_insn c)) as K. pose proof (kind_single (q_radix_data p)) as K'.
  unfold has_ptes, single_mode.
  destruct (kind (q_radix_data p)), (kind (q_radix_insn c)), (single (q_radix_insn c)), (single (q_radix_data p));
  destruct (rx_type (q_radix_data p) =? GUEST_REAL), (rx_type (q_radix_insn c) =? GUEST_REAL),
    (q_insn_ra_valid c), (iar_change p c); cbn; intros H; try reflexivity; exfalso; intuition discriminate.
Qed.

(** ** The invariant tying the reader's state to the evolving translation *)
Definition rel (s : rstate) (t : trans) (p : qrec) : Prop :=
  r_next_addr s = q_insn_addr p /\
  r_branch_info s = false /\ r_tlbie_info s = false /\
  (let c := promote (r_cur s) (r_nxt s) in
   optb (x_rpn_v c) (x_rpn c) = t_rpn t /\
   optb (x_ps_v c) (x_ps c) = t_ps t /\
   optb (x_gps_v c) (x_gps c) = t_gps t) /\
  shape (x_radix (r_nxt s)) /\
  walk_of (t_type t) (x_radix (r_nxt s)) = t_walk t /\
  rx_type (x_radix (r_nxt s)) = t_type t /\
  (rx_nr_ptes (x_radix (r_nxt s)) = 0 -> rx_nr_ptes (x_radix (r_cur s)) = 0) /\
  (forall n, t_ps t = Some n -> n < 64).

Lemma optb_true {A} b (x y : A) : optb b x = Some y -> b = true /\ x = y.
Proof. destruct b; [intros [= ->]; auto|discriminate]. Qed.

Definition drx (p c : qrec) : radix :=
  if data_walk p then back (if single (q_radix_data p) then data_kind p c else 0) zero_radix (q_radix_data p)
  else zero_radix.
Definition irx (old : radix) (p c : qrec) : radix :=
  if insn_walk p c then back (rx_type old) old (q_radix_insn c) else old.

Definition walk_cond (p c : qrec) : Prop :=
  (data_walk p = q_data_ra_valid p && have_flags3 p c) /\
  (insn_walk p c = (q_insn_ra_valid c && iar_change p c) && have_flags3 p c) /\
  ~ (data_walk p = true /\ single (q_radix_data p) = false
     /\ insn_walk p c = true /\ single (q_radix_insn c) = true) /\
  (q_data_ra_valid p = true -> storable (q_radix_data p)) /\
  (q_insn_ra_valid c && iar_change p c = true -> storable (q_radix_insn c)).

Lemma pair_walk_cond p c : pair_frames p c -> walk_cond p c.
Proof.
  unfold pair_frames, walk_cond. rewrite disc_eq. cbv zeta. intros (Sd & Si & H).
  unfold have_flags3, data_walk, insn_walk in *. rewrite !has_ptes_walked.
  rewrite (andb_comm (iar_change p c)) in *.
  destruct (q_data_ra_valid p), (q_insn_ra_valid c && iar_change p c),
    (walked (q_radix_data p)), (walked (q_radix_insn c)); cbn in *;
    try (destruct (H eq_refl) as (H1 & H2 & H3));
    (split; [|split; [|split; [|split]]]); try assumption; intuition congruence.
Qed.

Lemma walk_data_ok p c t :
  typed p -> walk_cond p c ->
  opt (q_data_ra_valid p && have_flags3 p c)
    (parse_walk (mode (rec_flags3 p c) SH_HOST_DATA) (mode (rec_flags3 p c) SH_GUEST_DATA) true zero_radix)
    zero_radix (wb (data_walk p) (emit_walk (q_radix_data p)) ++ t) = ROk (drx p c, t).
Proof.
  intros T (E & _ & N & S & _). rewrite <- E. unfold drx.
  destruct (data_walk p) eqn:D; cbn [opt wb app]; [|reflexivity].
  unfold data_walk in D. apply andb_true_iff in D as [D1 D2].
  assert (D : data_walk p = true) by (unfold data_walk; now rewrite D1, D2).
  rewrite f3_host_data.
  rewrite f3_guest_data by (auto; intuition congruence).
  pose proof (kind_single (q_radix_data p)) as K.
  rewrite parse_emit; auto; try apply T.
  - destruct (single (q_radix_data p)) eqn:Es.
    + f_equal. f_equal. f_equal. unfold data_kind.
      match goal with |- context [if ?b then GUEST_REAL else HOST_RADIX] => destruct b end; reflexivity.
    + f_equal.
  - intros Ek. apply K in Ek. rewrite Ek. destruct (_ =? _); auto.
  - intros Ek. destruct (single (q_radix_data p)); [|reflexivity].
    destruct K as [_ K]. specialize (K eq_refl). congruence.
Qed.

Lemma walk_insn_ok p c old t :
  typed c -> walk_cond p c ->
  opt ((q_insn_ra_valid c && iar_change p c) && have_flags3 p c)
    (parse_walk (mode (rec_flags3 p c) SH_HOST_INSN) (mode (rec_flags3 p c) SH_GUEST_INSN) false old)
    old (wb (insn_walk p c) (emit_walk (q_radix_insn c)) ++ t) = ROk (irx old p c, t).
Proof.
  intros T (_ & E & _ & _ & S). rewrite <- E. unfold irx.
  destruct (insn_walk p c) eqn:D; cbn [opt wb app]; [|reflexivity].
  assert (D' := D). unfold insn_walk in D'. apply andb_true_iff in D' as [D1 D2].
  rewrite f3_host_insn.
  rewrite f3_guest_insn by assumption.
  pose proof (kind_single (q_radix_insn c)) as K.
  rewrite parse_emit; auto; try apply T.
  - intros Ek. apply K in Ek. rewrite Ek. auto.
  - intros Ek. destruct (single (q_radix_insn c)); [|reflexivity].
    destruct K as [_ K]. specialize (K eq_refl). congruence.
Qed.

Lemma opt_false {A} (p : P A) d b : opt false p d b = ROk (d, b).
Proof. reflexivity. Qed.
Lemma guard_true b : guard true b = ROk (tt, b).
Proof. reflexivity. Qed.

Lemma term_ok c p t :
  opt c parse_term (0, 0, false) (wb c (put8 0 ++ put8 (term_code p)) ++ t)
  = ROk (if c then (0, term_code p, q_branch p && q_cond p) else (0, 0, false), t).
Proof.
  apply opt_wb. rewrite <- app_assoc. unfold parse_term.
  erewrite bind_ok by apply get8_put. erewrite bind_ok by apply get8_put.
  unfold term_code. destruct (q_branch p), (q_cond p); reflexivity.
Qed.

Lemma node_ok c p t :
  opt c get8 0 (wb c (put8 0 ++ put8 0 ++ put8 (term_code p)) ++ t)
  = ROk (0, wb c (put8 0 ++ put8 (term_code p)) ++ t).
Proof.
  destruct c; [|reflexivity]. cbn [opt wb]. rewrite <- app_assoc. apply get8_put.
Qed.

(** The two page-shift bytes whose order differs. *)
Definition out_dps (p c : qrec) : N :=
  if q_data_ps_valid p then (if swapped p c then q_ginsn_ps c else q_data_ps p) else 0.
Definition out_gps (old : N) (p c : qrec) : N :=
  if q_ginsn_ps_valid c && iar_change p c
  then (if swapped p c then q_data_ps p else q_ginsn_ps c) else old.

Lemma swapped_eq p c :
  swapped p c = (q_ginsn_ps_valid c && iar_change p c) && q_data_ps_valid p.
Proof. unfold swapped. rewrite disc_eq. now rewrite (andb_comm (iar_change p c)). Qed.

Lemma shift8 ps k : ps < k -> k <= 256 -> u8 ps mod 2 ^ 8 = ps.
Proof. intros. unfold u8, w8. change (2 ^ 8) with 256. rewrite !N.mod_small; try lia. Qed.

Lemma dps_ok p c t :
  shifts_ok p -> shifts_ok c ->
  opt (q_data_ps_valid p) get8 0
    (wb (q_ginsn_ps_valid c && iar_change p c) (put8 (u8 (q_ginsn_ps c))) ++
     wb (q_data_ps_valid p) (put8 (u8 (q_data_ps p))) ++ t)
  = ROk (out_dps p c,
         if swapped p c then put8 (u8 (q_data_ps p)) ++ t
         else wb (q_ginsn_ps_valid c && iar_change p c) (put8 (u8 (q_ginsn_ps c))) ++ t).
Proof.
  intros (_ & _ & Sd & _) (_ & Sg & _). unfold out_dps. rewrite swapped_eq.
  destruct (q_data_ps_valid p) eqn:D; rewrite ?andb_true_r, ?andb_false_r; cbn [opt].
  2: reflexivity.
  destruct (_ && _) eqn:G; cbn [wb app].
  - rewrite get8_put. apply andb_true_iff in G as [G _].
    rewrite (shift8 _ 64); [reflexivity|auto|lia].
  - rewrite get8_put. rewrite (shift8 _ 64); [reflexivity|auto|lia].
Qed.
Lemma gps_ok old p c t :
  shifts_ok p -> shifts_ok c ->
  opt (q_ginsn_ps_valid c && iar_change p c) get8 old
    (if swapped p c then put8 (u8 (q_data_ps p)) ++ t
     else wb (q_ginsn_ps_valid c && iar_change p c) (put8 (u8 (q_ginsn_ps c))) ++ t)
  = ROk (out_gps old p c, t).
Proof.
  intros (_ & _ & Sd & _) (_ & Sg & _). unfold out_gps. rewrite swapped_eq.
  destruct (_ && _) eqn:G; cbn [opt andb]; [|reflexivity].
  apply andb_true_iff in G as [G _].
  destruct (q_data_ps_valid p) eqn:D; cbn [wb]; rewrite get8_put.
  - rewrite (shift8 _ 64); [reflexivity|auto|lia].
  - rewrite (shift8 _ 64); [reflexivity|auto|lia].
Qed.

(** What the reader computes from a stored record. *)
Definition out_rec (s : rstate) (p c : qrec) (ra dra : N) : rrec :=
  let x := promote (r_cur s) (r_nxt s) in
  let term := rec_is_branch p c in
  mk_rrec
    (mk_qrec (q_insn p) (q_insn_addr p) (x_rpn_v x) ra
       (x_ps_v x) (if x_ps_v x then x_ps x else 0)
       (q_data_addr_valid p) (if q_data_addr_valid p then q_data_addr p else 0)
       (q_data_ra_valid p) dra
       (q_data_ps_valid p) (out_dps p c)
       (term || is_conditional_branch (q_insn p))
       (if term then (q_branch p && q_cond p) && negb (is_unconditional_branch (q_insn p))
        else is_conditional_branch (q_insn p))
       (x_gps_v x) (if x_gps_v x then x_gps x else 0)
       (q_gdata_ps_valid p) (if q_gdata_ps_valid p then q_gdata_ps p else 0)
       (if rx_nr_ptes (x_radix x) =? 0 then zero_radix else x_radix x)
       (drx p c))
    (iar_change p c) false BRANCH zero_regs zero_tlbie
    term 0 (if term then term_code p else 0) 0 (q_insn_addr c).
Definition out_state (s : rstate) (p c : qrec) : rstate :=
  mk_rs (r_version s) (r_magic s) (q_insn_addr c) (r_branch_info s) (r_tlbie_info s)
    (OPCODE (q_insn p) =? 1) (if r_prefixed s then q_insn p else r_suffix s)
    (promote (r_cur s) (r_nxt s))
    (mk_xl (q_insn_ra_valid c && iar_change p c)
           (if q_insn_ra_valid c && iar_change p c
            then rpn_of (q_insn_ra c) (optb (q_insn_ps_valid c) (q_insn_ps c))
            else x_rpn (r_nxt s))
           (q_insn_ps_valid c && iar_change p c)
           (if q_insn_ps_valid c && iar_change p c then q_insn_ps c else x_ps (r_nxt s))
           (q_ginsn_ps_valid c && iar_change p c)
           (out_gps (x_gps (r_nxt s)) p c)
           (irx (x_radix (r_nxt s)) p c))
    (r_lpid_present s) (r_lpid s) (r_pid_present s) (r_pid s).

Lemma ra_res_ok (v : bool) rpn (psv : bool) ps ea b :
  (psv = true -> ps < 64) ->
  ra_res v rpn psv ps ea b = ROk (if v then ra_of rpn (optb psv ps) ea else 0, b).
Proof.
  intros H. unfold ra_res. destruct v; [|reflexivity]. now rewrite real_addr_spec.
Qed.

Lemma next_addr_iar p c : typed c ->
  (if iar_change p c then q_insn_addr c mod 2 ^ 64 else add64 (q_insn_addr p) 4) = q_insn_addr c.
Proof.
  intros (_ & T & _). unfold iar_change. destruct (N.eqb_spec (q_insn_addr c) (add64 (q_insn_addr p) 4)).
  - cbn. congruence.
  - cbn [negb]. now apply N.mod_small.
Qed.

Lemma opt_get64 (b : bool) v d t : opt b get64 d (wb b (put64 v) ++ t) = ROk (if b then v mod 2 ^ 64 else d, t).
Proof. apply opt_wb, get64_put. Qed.
Lemma opt_get32 (b : bool) v d t : opt b get32 d (wb b (put32 v) ++ t) = ROk (if b then v mod 2 ^ 32 else d, t).
Proof. apply opt_wb, get32_put. Qed.
Lemma opt_get16 (b : bool) v d t : opt b get16 d (wb b (put16 v) ++ t) = ROk (if b then v mod 2 ^ 16 else d, t).
Proof. apply opt_wb, get16_put. Qed.
Lemma opt_get8 (b : bool) v d t : opt b get8 d (wb b (put8 v) ++ t) = ROk (if b then v mod 2 ^ 8 else d, t).
Proof. apply opt_wb, get8_put. Qed.

Lemma parse_core_stored s p c tail :
  typed p -> typed c -> shifts_ok p -> shifts_ok c -> walk_cond p c ->
  r_next_addr s = q_insn_addr p ->
  (x_ps_v (promote (r_cur s) (r_nxt s)) = true -> x_ps (promote (r_cur s) (r_nxt s)) < 64) ->
  let x := promote (r_cur s) (r_nxt s) in
  parse_core s (stored p c ++ tail) =
  ROk ((out_rec s p c
          (if x_rpn_v x then ra_of (x_rpn x) (optb (x_ps_v x) (x_ps x)) (q_insn_addr p) else 0)
          (if q_data_ra_valid p
           then ra_of (rpn_of (q_data_ra p) (optb (q_data_ps_valid p) (q_data_ps p)))
                      (optb (q_data_ps_valid p) (out_dps p c))
                      (if q_data_addr_valid p then q_data_addr p else 0) else 0),
        out_state s p c), tail).
Proof.
  intros Tp Tc Sp Sc W Ha Hps x. unfold stored, parse_core.
  rewrite Ha. fold x. rewrite <- !app_assoc.
  erewrite bind_ok by (apply ra_res_ok, Hps).
  erewrite bind_ok by apply get32_put. rewrite (N.mod_small (q_insn p)) by apply Tp.
  erewrite bind_ok by apply get16_put. rewrite f1_mod.
  rewrite f1_ext, f1_node, f1_term, f1_proc, f1_daddr, f1_dvsid, f1_drpn, f1_iar, f1_ivsid, f1_irpn, f1_reg.
  cbn [opt]. erewrite bind_ok by apply get16_put. rewrite f2_mod.
  rewrite f2_ext2, f2_srpn, f2_err, f2_sps, f2_ips, f2_dps, f2_igps, f2_dgps.
  rewrite f1_unh, f2_unh. cbn [andb].
  erewrite bind_ok by apply opt_get16.
  assert (Wd : forall t, opt (q_data_ra_valid p && have_flags3 p c)
    (parse_walk (mode (if have_flags3 p c then rec_flags3 p c mod 2 ^ 16 else 0) SH_HOST_DATA)
       (mode (if have_flags3 p c then rec_flags3 p c mod 2 ^ 16 else 0) SH_GUEST_DATA) true zero_radix)
    zero_radix (wb (data_walk p) (emit_walk (q_radix_data p)) ++ t) = ROk (drx p c, t)).
  { intros t. rewrite <- (walk_data_ok p c t Tp W). rewrite f3_mod.
    destruct (have_flags3 p c); [reflexivity|]. rewrite andb_false_r. reflexivity. }
  assert (Wi : forall old t, opt (q_insn_ra_valid c && iar_change p c && have_flags3 p c)
    (parse_walk (mode (if have_flags3 p c then rec_flags3 p c mod 2 ^ 16 else 0) SH_HOST_INSN)
       (mode (if have_flags3 p c then rec_flags3 p c mod 2 ^ 16 else 0) SH_GUEST_INSN) false old)
    old (wb (insn_walk p c) (emit_walk (q_radix_insn c)) ++ t) = ROk (irx old p c, t)).
  { intros old t. rewrite <- (walk_insn_ok p c old t Tc W). rewrite f3_mod.
    destruct (have_flags3 p c); [reflexivity|]. rewrite andb_false_r. reflexivity. }
  erewrite bind_ok by apply guard_true. erewrite bind_ok by apply guard_true.
  erewrite bind_ok by apply node_ok. erewrite bind_ok by apply term_ok.
  erewrite bind_ok by reflexivity.
  erewrite bind_ok by apply opt_get64.
  erewrite bind_ok by reflexivity.
  erewrite bind_ok by apply Wd.
  erewrite bind_ok by apply opt_get32. rewrite (N.mod_small (rpn_of _ _)) by apply rpn_of_lt.
  erewrite bind_ok by apply opt_get64. rewrite (next_addr_iar p c Tc).
  cbv zeta.
  erewrite bind_ok by reflexivity.
  erewrite bind_ok by apply Wi.
  erewrite bind_ok by apply opt_get32. rewrite (N.mod_small (rpn_of _ _)) by apply rpn_of_lt.
  erewrite bind_ok by reflexivity. erewrite bind_ok by reflexivity.
  erewrite bind_ok by reflexivity. erewrite bind_ok by reflexivity.
  erewrite bind_ok by apply opt_get8.
  erewrite bind_ok by (apply dps_ok; assumption).
  erewrite bind_ok.
  2:{ apply ra_res_ok. intros D. unfold out_dps. rewrite D, swapped_eq.
      destruct (q_ginsn_ps_valid c && iar_change p c) eqn:G; cbn [andb].
      - rewrite D. apply andb_true_iff in G as [G _]. apply Sc, G.
      - apply Sp, D. }
  erewrite bind_ok by (apply gps_ok; assumption).
  erewrite bind_ok by apply opt_get8.
  unfold ret, out_rec, out_state. fold x.
  rewrite (N.mod_small (q_data_addr p)) by apply Tp.
  assert (E1 : (if q_gdata_ps_valid p then u8 (q_gdata_ps p) mod 2 ^ 8 else 0)
               = if q_gdata_ps_valid p then q_gdata_ps p else 0).
  { destruct (q_gdata_ps_valid p) eqn:G; [|reflexivity]. apply (shift8 _ 256); [|lia]. now apply Sp. }
  assert (E2 : (if q_insn_ps_valid c && iar_change p c then u8 (q_insn_ps c) mod 2 ^ 8 else x_ps (r_nxt s))
               = if q_insn_ps_valid c && iar_change p c then q_insn_ps c else x_ps (r_nxt s)).
  { destruct (q_insn_ps_valid c && iar_change p c) eqn:G; [|reflexivity]. apply andb_true_iff in G as [G _].
    apply (shift8 _ 64); [|lia]. now apply Sc. }
  rewrite E1, E2. cbn [orb].
  assert (E3 : rec_is_branch p c && negb (q_insn_addr c =? add64 (q_insn_addr p) 4) = iar_change p c).
  { fold (iar_change p c). unfold rec_is_branch. destruct (iar_change p c), (q_branch p); reflexivity. }
  rewrite E3.
  rewrite !orb_false_r.
  clear Wd Wi W.
  destruct (rec_is_branch p c); cbn [fst snd];
  (destruct (q_data_addr_valid p), (q_data_ra_valid p), (q_insn_ra_valid c && iar_change p c); reflexivity).
Qed.

Lemma OPCODE_prefix w : w < 2 ^ 32 -> (OPCODE w =? 1) = is_prefix_word w.
Proof.
  intros H. unfold OPCODE, is_prefix_word. f_equal.
  apply N.shiftr_div_pow2.
Qed.

Lemma walk_of_zero u : walk_of u zero_radix = None.
Proof. reflexivity. Qed.
Lemma walk_of_nr0 u r : rx_nr_ptes r = 0 -> walk_of u r = None.
Proof. intros H. unfold walk_of. now rewrite H. Qed.
Lemma walk_of_unwalked u r : walked r = false -> walk_of u r = None.
Proof.
  unfold walked, walk_of. destruct (rx_nr_ptes r =? 0); [reflexivity|].
  destruct (rx_walks r =? 0); [reflexivity|discriminate].
Qed.
Lemma walk_of_walked u r : walked r = true -> walk_of u r <> None.
Proof.
  unfold walked, walk_of. destruct (rx_nr_ptes r =? 0); [discriminate|].
  destruct (rx_walks r =? 0); [discriminate|]. destruct (rx_walks r =? 1); discriminate.
Qed.
Lemma walk_of_type u v r : single r = false -> walk_of u r = walk_of v r.
Proof.
  unfold single, walk_of. destruct (rx_nr_ptes r =? 0); [reflexivity|]. cbn.
  intros ->. reflexivity.
Qed.

Lemma view_out s t p c :
  rel s t p -> typed p -> shifts_ok p -> shifts_ok c -> walk_cond p c ->
  let x := promote (r_cur s) (r_nxt s) in
  view_of (out_rec s p c
          (if x_rpn_v x then ra_of (x_rpn x) (optb (x_ps_v x) (x_ps x)) (q_insn_addr p) else 0)
          (if q_data_ra_valid p
           then ra_of (rpn_of (q_data_ra p) (optb (q_data_ps_valid p) (q_data_ps p)))
                      (optb (q_data_ps_valid p) (out_dps p c))
                      (if q_data_addr_valid p then q_data_addr p else 0) else 0))
  = expected_one t p c.
Proof.
  intros (Ra & _ & _ & (Rr & Rp & Rg) & Rs & Rw & Rt & Rn & _) T Sp Sc W x.
  unfold view_of, out_rec, expected_one. fold x in Rr, Rp, Rg |- *.
  cbn [o_q o_taken o_next_addr q_insn q_insn_addr q_insn_ra_valid q_insn_ra q_insn_ps_valid q_insn_ps
       q_data_addr_valid q_data_addr q_data_ra_valid q_data_ra q_data_ps_valid q_data_ps q_branch q_cond
       q_ginsn_ps_valid q_ginsn_ps q_gdata_ps_valid q_gdata_ps q_radix_insn q_radix_data].
  rewrite (disc_eq p c). fold (rec_is_branch p c).
  f_equal.
  - rewrite <- Rr, Rp. destruct (x_rpn_v x); reflexivity.
  - rewrite <- Rp. destruct (x_ps_v x); reflexivity.
  - rewrite <- Rg. destruct (x_gps_v x); reflexivity.
  - rewrite <- Rw. unfold x, promote. cbn [x_radix].
    destruct (N.eqb_spec (rx_nr_ptes (x_radix (r_nxt s))) 0) as [E|E].
    + rewrite (Rn E). change (0 =? 0) with true. cbn match.
      rewrite walk_of_zero, walk_of_nr0 by assumption. reflexivity.
    + apply N.eqb_neq in E. rewrite E. now rewrite Rt.
  - destruct (q_data_addr_valid p); reflexivity.
  - unfold out_dps.
    destruct (q_data_ra_valid p), (q_data_ps_valid p), (q_data_addr_valid p); reflexivity.
  - unfold out_dps. destruct (q_data_ps_valid p); reflexivity.
  - destruct (q_gdata_ps_valid p); reflexivity.
  - unfold drx. destruct W as (_ & _ & _ & S & _).
    destruct (data_walk p) eqn:D; unfold data_walk in D.
    + apply andb_true_iff in D as [D1 D2]. rewrite D1.
      destruct (back_spec (if single (q_radix_data p) then data_kind p c else 0) zero_radix (q_radix_data p))
        as (_ & _ & B1 & B2); auto; [apply T|apply zero_shape|].
      rewrite B1, B2. destruct (single (q_radix_data p)) eqn:E; [reflexivity|].
      apply walk_of_type, E.
    + rewrite walk_of_zero. destruct (q_data_ra_valid p); [|reflexivity]. cbn in D.
      rewrite has_ptes_walked in D. now rewrite walk_of_unwalked.
Qed.

Lemma irx_spec old p c :
  shape old -> typed c -> walk_cond p c ->
  shape (irx old p c) /\ rx_type (irx old p c) = rx_type old /\
  (forall u, walk_of u (irx old p c) =
     if q_insn_ra_valid c && iar_change p c
     then por (walk_of u (q_radix_insn c)) (walk_of u old) else walk_of u old) /\
  (insn_walk p c = true -> rx_nr_ptes (irx old p c) <> 0) /\
  (insn_walk p c = false -> irx old p c = old).
Proof.
  intros So T (_ & _ & _ & _ & S). unfold irx. destruct (insn_walk p c) eqn:D; unfold insn_walk in D.
  - apply andb_true_iff in D as [D1 D2]. rewrite D1.
    destruct (back_spec (rx_type old) old (q_radix_insn c)) as (B0 & Bn & B1 & B2); auto; [apply T|].
    split; [assumption|]. split; [rewrite B2; now destruct (single _)|].
    split; [|split; [auto|discriminate]].
    intros u. rewrite B1. rewrite has_ptes_walked in D2. apply (walk_of_walked u) in D2.
    destruct (walk_of u (q_radix_insn c)); [reflexivity|congruence].
  - split; [assumption|]. split; [reflexivity|]. split; [|split; [discriminate|auto]].
    intros u. destruct (q_insn_ra_valid c && iar_change p c); [|reflexivity]. cbn in D.
    rewrite has_ptes_walked in D. now rewrite (walk_of_unwalked u (q_radix_insn c)).
Qed.

Lemma rel_out s t p c :
  rel s t p -> typed c -> shifts_ok p -> shifts_ok c -> walk_cond p c ->
  rel (out_state s p c) (next_trans t p c) c.
Proof.
  intros (Ra & Rb & Rl & (Rr & Rp & Rg) & Rs & Rw & Rt & Rn & R64) T Sp Sc W.
  destruct (irx_spec (x_radix (r_nxt s)) p c Rs T W) as (I1 & I2 & I3 & I4 & I5).
  unfold rel, out_state.
  cbn [r_next_addr r_branch_info r_tlbie_info r_cur r_nxt x_radix].
  set (x := promote (r_cur s) (r_nxt s)) in *.
  split; [reflexivity|]. split; [exact Rb|]. split; [exact Rl|].
  assert (Ht : t_type (next_trans t p c) = t_type t).
  { unfold next_trans. destruct (discontinuity p c); reflexivity. }
  split; [|split; [exact I1|split; [|split; [|split]]]].
  - unfold promote. cbn [x_rpn_v x_rpn x_ps_v x_ps x_gps_v x_gps].
    unfold next_trans, out_gps. rewrite (disc_eq p c).
    destruct (iar_change p c) eqn:E; rewrite ?andb_true_r, ?andb_false_r, ?orb_false_r.
    + cbn [t_rpn t_ps t_gps]. rewrite <- Rr, <- Rp, <- Rg.
      destruct (q_insn_ra_valid c), (q_insn_ps_valid c), (q_ginsn_ps_valid c);
        rewrite ?orb_true_r, ?orb_false_r; repeat split; reflexivity.
    + auto.
  - rewrite Ht, I3. unfold next_trans. rewrite (disc_eq p c).
    destruct (iar_change p c); rewrite ?andb_true_r, ?andb_false_r; [|exact Rw].
    cbn [t_walk]. destruct (q_insn_ra_valid c); rewrite <- Rw; reflexivity.
  - rewrite Ht, I2. exact Rt.
  - destruct (insn_walk p c).
    + intros E. now apply I4 in E.
    + rewrite I5 by reflexivity. intros E. unfold x, promote. cbn [x_radix]. rewrite E. cbn. auto.
  - intros n. unfold next_trans. rewrite (disc_eq p c). destruct (iar_change p c); [|auto].
    cbn [t_ps]. destruct (q_insn_ps_valid c) eqn:E; cbn; [|auto]. intros [= <-]. apply Sc, E.
Qed.

(** One stored record read back. *)
Lemma read_back s t p c tail :
  rel s t p -> typed p -> typed c -> shifts_ok p -> shifts_ok c -> pair_frames p c ->
  exists r, parse_core s (stored p c ++ tail) = ROk ((r, out_state s p c), tail) /\
            view_of r = expected_one t p c /\
            rel (out_state s p c) (next_trans t p c) c /\
            r_prefixed (out_state s p c) = is_prefix_word (q_insn p).
Proof.
  intros R Tp Tc Sp Sc F. apply pair_walk_cond in F.
  eexists. split; [|split; [|split]].
  - apply parse_core_stored; auto; [apply R|].
    destruct R as (_ & _ & _ & (_ & Rp & _) & _ & _ & _ & _ & R64).
    intros E. rewrite E in Rp. apply R64. now rewrite <- Rp.
  - apply view_out; auto.
  - apply rel_out; auto.
  - cbn [out_state r_prefixed]. apply OPCODE_prefix, Tp.
Qed.

(** ** The header *)
Definition hdr_bytes (magic : N) (r : qrec) : list N :=
  put32 0 ++ put16 F_EXT ++
  put16 (N.lor F2_FILE_HEADER (fl (negb (rx_nr_ptes (q_radix_insn r) =? 0)) F2_EXT2)) ++
  wb (has_ptes (q_radix_insn r)) (put16 (hdr_flags3 (q_radix_insn r))) ++
  put16 (hdr_flags magic r) ++
  wb (negb (magic =? 0)) (put32 magic) ++
  put32 QTWRITER_VERSION ++
  put64 (q_insn_addr r) ++
  wb (has_ptes (q_radix_insn r)) (emit_walk (q_radix_insn r)) ++
  wb (q_insn_ra_valid r) (put32 (rpn_of (q_insn_ra r) (optb (q_insn_ps_valid r) (q_insn_ps r)))) ++
  wb (q_insn_ps_valid r) (put8 (u8 (q_insn_ps r))) ++
  wb (q_ginsn_ps_valid r) (put8 (u8 (q_ginsn_ps r))) ++ [].

Lemma write_header_bytes magic r :
  shifts_ok r -> storable (q_radix_insn r) -> write_header magic r = inr (hdr_bytes magic r).
Proof.
  intros (Si & _) S. unfold write_header. rewrite (storable_assert _ S). cbn [econcat].
  rewrite (put_rpn_ok _ _ _ Si), !when_eok, ?when_inr. unfold eok. rewrite !eapp_inr. reflexivity.
Qed.

Section HFlags.
Variables (magic : N) (r : qrec).
Notation hf := (hdr_flags magic r).
Ltac hf_tac :=
  unfold hdr_flags;
  destruct (q_insn_ra_valid r), (q_insn_ps_valid r), (q_ginsn_ps_valid r), (negb (magic =? 0)); reflexivity.
Lemma hf_mod : hf mod 2 ^ 16 = hf. Proof. hf_tac. Qed.
Lemma hf_unh : N.land hf UNHANDLED_HDR_FLAGS =? 0 = true. Proof. hf_tac. Qed.
Lemma hf_magic : has hf HDR_MAGIC = negb (magic =? 0). Proof. hf_tac. Qed.
Lemma hf_version : has hf HDR_VERSION = true. Proof. hf_tac. Qed.
Lemma hf_iar : has hf HDR_IAR = true. Proof. hf_tac. Qed.
Lemma hf_vsid : has hf HDR_IAR_VSID = false. Proof. hf_tac. Qed.
Lemma hf_rpn : has hf HDR_IAR_RPN = q_insn_ra_valid r. Proof. hf_tac. Qed.
Lemma hf_ps : has hf HDR_IAR_PAGE_SIZE = q_insn_ps_valid r. Proof. hf_tac. Qed.
Lemma hf_gps : has hf HDR_IAR_GPAGE_SIZE = q_ginsn_ps_valid r. Proof. hf_tac. Qed.
Lemma hf_comment : has hf HDR_COMMENT = false. Proof. hf_tac. Qed.
End HFlags.

Lemma hf3_mod r : hdr_flags3 r mod 2 ^ 16 = hdr_flags3 r.
Proof. unfold hdr_flags3. destruct (kind r); try reflexivity. destruct (single_mode_cases r) as [-> | ->]; reflexivity. Qed.
Lemma hf3_host r : mode (hdr_flags3 r) SH_HOST_INSN = MODE_RADIX.
Proof. unfold hdr_flags3. destruct (kind r); try reflexivity. destruct (single_mode_cases r) as [-> | ->]; reflexivity. Qed.
Lemma hf3_guest r : mode (hdr_flags3 r) SH_GUEST_INSN = if single r then single_mode r else MODE_RADIX.
Proof.
  unfold hdr_flags3. pose proof (kind_single r) as K.
  destruct (kind r), (single r); try reflexivity; try (exfalso; intuition discriminate).
  destruct (single_mode_cases r) as [-> | ->]; reflexivity.
Qed.
Lemma hf3_ids r : has (hdr_flags3 r) F3_PTCR = false /\ has (hdr_flags3 r) F3_LPID = false /\ has (hdr_flags3 r) F3_PID = false.
Proof. unfold hdr_flags3. destruct (kind r); try (repeat split; reflexivity). destruct (single_mode_cases r) as [-> | ->]; repeat split; reflexivity. Qed.

Lemma header_back magic r tail :
  magic < 2 ^ 32 -> typed r -> shifts_ok r -> header_frames r ->
  exists s, parse_header init_state (hdr_bytes magic r ++ tail) = ROk (s, tail) /\
            rel (set_info false false s) (first_trans r) r /\ r_prefixed s = false /\
            r_magic s = magic /\ r_version s = QTWRITER_VERSION.
Proof.
  intros Hm T S (Hn & St).
  set (rx := q_radix_insn r) in *.
  assert (HP : has_ptes rx = negb (rx_nr_ptes rx =? 0)).
  { destruct (N.eqb_spec (rx_nr_ptes rx) 0) as [E|E].
    - unfold has_ptes, kind. rewrite E. reflexivity.
    - rewrite has_ptes_walked. apply Hn, E. }
  assert (HR : has_ptes rx = q_insn_ra_valid r && has_ptes rx).
  { rewrite HP. destruct (N.eqb_spec (rx_nr_ptes rx) 0) as [E|E]; [now rewrite andb_false_r|].
    destruct (Hn E) as [-> _]. reflexivity. }
  set (new := if has_ptes rx then back (if single rx then rx_type rx else 0) zero_radix rx else zero_radix).
  assert (PW : forall t, opt (q_insn_ra_valid r && has_ptes rx)
      (parse_walk (mode (if has_ptes rx then hdr_flags3 rx else 0) SH_HOST_INSN)
                  (mode (if has_ptes rx then hdr_flags3 rx else 0) SH_GUEST_INSN) true zero_radix)
      zero_radix (wb (has_ptes rx) (emit_walk rx) ++ t) = ROk (new, t)).
  { intros t. rewrite <- HR. unfold new. destruct (has_ptes rx) eqn:E; cbn [opt wb app]; [|reflexivity].
    rewrite hf3_host, hf3_guest. pose proof (kind_single rx) as K.
    rewrite parse_emit; auto; try apply T.
    - destruct (single rx) eqn:Es; [|reflexivity]. f_equal. f_equal. f_equal.
      assert (Hty : rx_type rx = GUEST_REAL \/ rx_type rx = HOST_RADIX).
      { unfold single in Es. apply andb_true_iff in Es as [E1 E2]. rewrite negb_true_iff in E1.
        apply N.eqb_neq in E1. apply N.eqb_eq in E2. now apply St. }
      unfold single_mode. destruct Hty as [-> | ->]; reflexivity.
    - intros Ek. apply K in Ek. rewrite Ek. apply single_mode_cases.
    - intros Ek. destruct (single rx); [|reflexivity]. destruct K as [_ K]. specialize (K eq_refl). congruence. }
  assert (E2 : forall b, (N.lor F2_FILE_HEADER (fl b F2_EXT2)) mod 2 ^ 16 = N.lor F2_FILE_HEADER (fl b F2_EXT2)
             /\ has (N.lor F2_FILE_HEADER (fl b F2_EXT2)) F2_FILE_HEADER = true
             /\ N.land (N.lor F2_FILE_HEADER (fl b F2_EXT2)) 0xFFFC =? 0 = true
             /\ has (N.lor F2_FILE_HEADER (fl b F2_EXT2)) F2_EXT2 = b).
  { intros []; repeat split; reflexivity. }
  destruct (E2 (negb (rx_nr_ptes rx =? 0))) as (E2a & E2b & E2c & E2d). clear E2.
  unfold hdr_bytes, parse_header. fold rx. rewrite <- !app_assoc.
  erewrite bind_ok by apply get32_put. change (0 mod 2 ^ 32 =? 0) with true.
  erewrite bind_ok by apply guard_true.
  erewrite bind_ok by apply get16_put. change (F_EXT mod 2 ^ 16 =? F_EXT) with true.
  erewrite bind_ok by apply guard_true.
  erewrite bind_ok by apply get16_put. rewrite E2a, E2b, E2c, E2d, <- HP.
  erewrite bind_ok by apply guard_true. erewrite bind_ok by apply guard_true.
  erewrite bind_ok by apply opt_get16. rewrite hf3_mod.
  erewrite bind_ok by apply get16_put. rewrite hf_mod.
  rewrite hf_unh, hf_magic, hf_version, hf_iar, hf_vsid, hf_rpn, hf_ps, hf_gps, hf_comment.
  erewrite bind_ok by apply guard_true.
  erewrite bind_ok by apply opt_get32. rewrite (N.mod_small magic) by assumption.
  cbn [opt].
  erewrite bind_ok by apply get32_put. change (QTWRITER_VERSION mod 2 ^ 32) with QTWRITER_VERSION.
  erewrite bind_ok by apply get64_put. rewrite (N.mod_small (q_insn_addr r)) by apply T.
  erewrite bind_ok by reflexivity.
  change (x_radix (r_nxt init_state)) with zero_radix.
  erewrite bind_ok by apply PW.
  erewrite bind_ok by apply opt_get32. rewrite (N.mod_small (rpn_of _ _)) by apply rpn_of_lt.
  erewrite bind_ok by apply opt_get8. erewrite bind_ok by apply opt_get8.
  assert (F3 : has (if has_ptes rx then hdr_flags3 rx else 0) F3_PTCR = false /\
               has (if has_ptes rx then hdr_flags3 rx else 0) F3_LPID = false /\
               has (if has_ptes rx then hdr_flags3 rx else 0) F3_PID = false).
  { destruct (has_ptes rx); [apply hf3_ids|repeat split; reflexivity]. }
  destruct F3 as (-> & -> & ->). cbn [opt].
  erewrite bind_ok by reflexivity. erewrite bind_ok by reflexivity. erewrite bind_ok by reflexivity.
  erewrite bind_ok by reflexivity. erewrite bind_ok by reflexivity.
  cbv zeta. eexists. split; [reflexivity|].
  destruct S as (S1 & S2 & _).
  assert (Sh : shape new /\ (forall u, walk_of u new = if q_insn_ra_valid r then walk_of u rx else None)
               /\ rx_type new = t_type (first_trans r)
               ).
  { unfold new. destruct (has_ptes rx) eqn:E.
    - symmetry in HR. apply andb_true_iff in HR as [HR _]. rewrite HR.
      destruct (back_spec (if single rx then rx_type rx else 0) zero_radix rx) as (B0 & B1 & B2 & B3);
        auto; [apply T|apply zero_shape|].
      split; [assumption|]. split; [assumption|].
      rewrite B3. cbn [first_trans t_type]. fold rx. rewrite HR. cbn [andb]. destruct (single rx); reflexivity.
    - split; [apply zero_shape|]. rewrite has_ptes_walked in E. split.
      + intros u. rewrite walk_of_zero. destruct (q_insn_ra_valid r); [|reflexivity]. now rewrite walk_of_unwalked.
      + cbn [first_trans t_type]. fold rx. unfold single. unfold walked in E.
        destruct (rx_nr_ptes rx =? 0); cbn in E |- *; rewrite ?andb_false_r; [reflexivity|].
        destruct (N.eqb_spec (rx_walks rx) 0) as [->|]; [|discriminate]. now rewrite andb_false_r. }
  destruct Sh as (Sh1 & Sh2 & Sh3).
  split; [|split; [reflexivity|split; [|reflexivity]]].
  2: { destruct (N.eqb_spec magic 0) as [->|]; reflexivity. }
  unfold rel. cbn [set_info r_next_addr r_branch_info r_tlbie_info r_cur r_nxt x_radix].
  split; [reflexivity|]. split; [reflexivity|]. split; [reflexivity|].
  split; [|split; [exact Sh1|split; [|split; [exact Sh3|split]]]].
  - unfold promote, init_state, zero_xl. cbn [r_cur r_nxt x_rpn_v x_rpn x_ps_v x_ps x_gps_v x_gps orb].
    unfold first_trans. cbn [t_rpn t_ps t_gps].
    destruct (q_insn_ra_valid r), (q_insn_ps_valid r), (q_ginsn_ps_valid r); cbn [orb optb]; repeat split;
      try reflexivity; f_equal; apply (shift8 _ 64); auto; lia.
  - rewrite Sh2. unfold first_trans. cbn [t_walk t_type]. fold rx. reflexivity.
  - reflexivity.
  - intros n. unfold first_trans. cbn [t_ps]. intros E. apply optb_true in E as [E <-]. auto.
Qed.
