(** What a reader should see of a written trace.  Independent of the writer's
    and reader's control flow. *)
Require Import NArith List Bool.
Require Import Verif.Codec_Types Verif.Branch_Model Verif.Reader_Model.
Import ListNotations.
Local Open Scope N_scope.

(** ** Values representable by the C types *)
Definition word64s (l : list N) : Prop := Forall (fun x => x < 2 ^ 64) l.
Definition typed_radix (r : radix) : Prop :=
  length (rx_host_ptes r) = 5%nat /\
  Forall (fun row => length row = 4%nat /\ word64s row) (rx_host_ptes r) /\
  length (rx_host_real r) = 4%nat /\ word64s (rx_host_real r) /\
  length (rx_guest_real r) = 5%nat /\ word64s (rx_guest_real r).
Definition typed (q : qrec) : Prop :=
  q_insn q < 2 ^ 32 /\ q_insn_addr q < 2 ^ 64 /\ q_insn_ra q < 2 ^ 64 /\
  q_data_addr q < 2 ^ 64 /\ q_data_ra q < 2 ^ 64 /\
  typed_radix (q_radix_insn q) /\ typed_radix (q_radix_data q).

(** ** Page-table walks as observed *)
Record wk := mk_wk {
  k_type : option N;          (* kind, for a single walk *)
  k_entries : list (list N);  (* one row per walk *)
  k_hreal : list N;
  k_greal : list N
}.
(** A single walk always carries four entries; a multiple walk of w walks has
    w rows of nr entries, w-1 host and w guest real addresses. *)
Definition walk_of (ty : N) (r : radix) : option wk :=
  if rx_nr_ptes r =? 0 then None
  else if rx_walks r =? 0 then None
  else if rx_walks r =? 1 then
    Some (mk_wk (Some ty) (map (firstn 4) (firstn 1 (rx_host_ptes r))) [] [])
  else
    let w := N.to_nat (rx_walks r) in
    Some (mk_wk None (map (firstn (N.to_nat (rx_nr_ptes r))) (firstn w (rx_host_ptes r)))
                (firstn (w - 1) (rx_host_real r)) (firstn w (rx_guest_real r))).

Definition optb {A} (b : bool) (x : A) : option A := if b then Some x else None.
Definition dflt {A} (o : option A) (d : A) : A := match o with Some x => x | None => d end.
Definition por {A} (o d : option A) : option A := match o with Some x => Some x | None => d end.

(** ** Views *)
Record view := mk_view {
  v_insn : N; v_addr : N;
  v_ra : option N; v_ps : option N; v_gps : option N; v_walk : option wk;
  v_daddr : option N; v_dra : option N; v_dps : option N; v_gdps : option N;
  v_dwalk : option wk;
  v_branch : bool; v_cond : bool; v_taken : bool; v_next : N
}.

Definition view_of (r : rrec) : view :=
  let q := o_q r in
  mk_view (q_insn q) (q_insn_addr q)
    (optb (q_insn_ra_valid q) (q_insn_ra q)) (optb (q_insn_ps_valid q) (q_insn_ps q))
    (optb (q_ginsn_ps_valid q) (q_ginsn_ps q))
    (walk_of (rx_type (q_radix_insn q)) (q_radix_insn q))
    (optb (q_data_addr_valid q) (q_data_addr q))
    (optb (q_data_ra_valid q) (q_data_ra q)) (optb (q_data_ps_valid q) (q_data_ps q))
    (optb (q_gdata_ps_valid q) (q_gdata_ps q))
    (walk_of (rx_type (q_radix_data q)) (q_radix_data q))
    (q_branch q) (q_cond q) (o_taken r) (o_next_addr r).

(** ** Page numbers: 64K pages when no shift is given *)
Definition rpn_of (ra : N) (ps : option N) : N := (ra / 2 ^ dflt ps 16) mod 2 ^ 32.
Definition ra_of (rpn : N) (ps : option N) (ea : N) : N :=
  let s := dflt ps 16 in (rpn * 2 ^ s) mod 2 ^ 64 + ea mod 2 ^ s.

(** ** Instruction translation as it evolves along a trace *)
Record trans := mk_trans {
  t_rpn : option N; t_ps : option N; t_gps : option N; t_walk : option wk; t_type : N
}.

Definition discontinuity (prev cur : qrec) : bool :=
  negb (q_insn_addr cur =? (q_insn_addr prev + 4) mod 2 ^ 64).

(** One byte carries the data page shift and one the guest instruction page
    shift of the next instruction; stored together they come back swapped. *)
Definition swapped (prev cur : qrec) : bool :=
  discontinuity prev cur && q_ginsn_ps_valid cur && q_data_ps_valid prev.

Definition single (r : radix) : bool := negb (rx_nr_ptes r =? 0) && (rx_walks r =? 1).
Definition walked (r : radix) : bool := negb (rx_nr_ptes r =? 0) && negb (rx_walks r =? 0).

Definition first_trans (r : qrec) : trans :=
  let ps := optb (q_insn_ps_valid r) (q_insn_ps r) in
  let ty := if q_insn_ra_valid r && single (q_radix_insn r) then rx_type (q_radix_insn r) else 0 in
  mk_trans (optb (q_insn_ra_valid r) (rpn_of (q_insn_ra r) ps)) ps
           (optb (q_ginsn_ps_valid r) (q_ginsn_ps r))
           (if q_insn_ra_valid r then walk_of ty (q_radix_insn r) else None) ty.

(** Updated only when the stored record is followed by a discontinuity. *)
Definition next_trans (t : trans) (prev cur : qrec) : trans :=
  if discontinuity prev cur then
    let ps := optb (q_insn_ps_valid cur) (q_insn_ps cur) in
    mk_trans (por (optb (q_insn_ra_valid cur) (rpn_of (q_insn_ra cur) ps)) (t_rpn t))
             (por ps (t_ps t))
             (por (optb (q_ginsn_ps_valid cur)
                        (if swapped prev cur then q_data_ps prev else q_ginsn_ps cur)) (t_gps t))
             (if q_insn_ra_valid cur
              then por (walk_of (t_type t) (q_radix_insn cur)) (t_walk t) else t_walk t)
             (t_type t)
  else t.

(** Kind of a single data walk: stored in bits shared with the kind of a
    single instruction walk in the same stored record. *)
Definition data_kind (prev cur : qrec) : N :=
  let i := discontinuity prev cur && q_insn_ra_valid cur && single (q_radix_insn cur) in
  if (rx_type (q_radix_data prev) =? GUEST_REAL)
     && negb (i && negb (rx_type (q_radix_insn cur) =? GUEST_REAL))
  then GUEST_REAL else HOST_RADIX.

(** The record [prev], given that [cur] was written next. *)
Definition expected_one (t : trans) (prev cur : qrec) : view :=
  let sw := swapped prev cur in
  let dps_w := optb (q_data_ps_valid prev) (q_data_ps prev) in
  let dps := optb (q_data_ps_valid prev) (if sw then q_ginsn_ps cur else q_data_ps prev) in
  let daddr := optb (q_data_addr_valid prev) (q_data_addr prev) in
  let term := q_branch prev || discontinuity prev cur in
  let w := q_insn prev in
  mk_view w (q_insn_addr prev)
    (match t_rpn t with
     | Some p => Some (ra_of p (t_ps t) (q_insn_addr prev))
     | None => None
     end)
    (t_ps t) (t_gps t) (t_walk t)
    daddr
    (optb (q_data_ra_valid prev) (ra_of (rpn_of (q_data_ra prev) dps_w) dps (dflt daddr 0)))
    dps
    (optb (q_gdata_ps_valid prev) (q_gdata_ps prev))
    (if q_data_ra_valid prev then walk_of (data_kind prev cur) (q_radix_data prev) else None)
    (term || is_conditional_branch w)
    (if term then (q_branch prev && q_cond prev) && negb (is_unconditional_branch w)
     else is_conditional_branch w)
    (discontinuity prev cur)
    (q_insn_addr cur).

(** The last record is followed by nothing: as if by its successor. *)
Definition successor (q : qrec) : qrec :=
  mk_qrec 0 ((q_insn_addr q + 4) mod 2 ^ 64) false 0 false 0 false 0 false 0 false 0
          false false false 0 false 0 zero_radix zero_radix.

Fixpoint expected_from (t : trans) (prev : qrec) (rs : list qrec) : list view :=
  match rs with
  | [] => [expected_one t prev (successor prev)]
  | cur :: rs' => expected_one t prev cur :: expected_from (next_trans t prev cur) cur rs'
  end.
Definition expected (rs : list qrec) : list view :=
  match rs with [] => [] | r :: rs' => expected_from (first_trans r) r rs' end.

(** ** What the format can frame *)
Definition storable (r : radix) : Prop :=
  rx_nr_ptes r <> 0 ->
  (rx_walks r = 1 -> rx_type r = GUEST_REAL \/ rx_type r = HOST_RADIX) /\
  (1 < rx_walks r -> rx_nr_ptes r <= 4 /\ rx_walks r <= 5).
(** Page shifts below 64, so that shifting a 64-bit address is defined. *)
Definition shifts_ok (q : qrec) : Prop :=
  (q_insn_ps_valid q = true -> q_insn_ps q < 64) /\
  (q_ginsn_ps_valid q = true -> q_ginsn_ps q < 64) /\
  (q_data_ps_valid q = true -> q_data_ps q < 64) /\
  (q_gdata_ps_valid q = true -> q_gdata_ps q < 256).

(** First record: walk entries only together with a real address and at least
    one walk. *)
Definition header_frames (r : qrec) : Prop :=
  (rx_nr_ptes (q_radix_insn r) <> 0 ->
     q_insn_ra_valid r = true /\ walked (q_radix_insn r) = true) /\
  storable (q_radix_insn r).

(** A stored record carries up to two real addresses, that of the data and
    that of the discontinuity target.  If one comes with a walk then both do,
    and not as (multiple data walk, single instruction walk). *)
Definition pair_frames (prev cur : qrec) : Prop :=
  let D := q_data_ra_valid prev in
  let I := discontinuity prev cur && q_insn_ra_valid cur in
  let d := q_radix_data prev in
  let i := q_radix_insn cur in
  (D = true -> storable d) /\ (I = true -> storable i) /\
  (D && walked d || I && walked i = true ->
     (D = true -> walked d = true) /\ (I = true -> walked i = true) /\
     ~ (D = true /\ I = true /\ single d = false /\ single i = true)).

(** Null instruction words introduce headers, except after a prefix. *)
Definition is_prefix_word (w : N) : bool := w / 2 ^ 26 =? 1.

Fixpoint chain_frames (prev : qrec) (rs : list qrec) : Prop :=
  match rs with
  | [] => True
  | cur :: rs' =>
      typed cur /\ shifts_ok cur /\
      (q_insn cur = 0 -> is_prefix_word (q_insn prev) = true) /\
      pair_frames prev cur /\ chain_frames cur rs'
  end.
Definition frames (rs : list qrec) : Prop :=
  match rs with
  | [] => True
  | r :: rs' =>
      typed r /\ shifts_ok r /\ q_insn r <> 0 /\ header_frames r /\ chain_frames r rs'
  end.
(** The last record is stored at close. *)
Definition closes (rs : list qrec) : Prop :=
  let r := last rs zero_qrec in q_data_ra_valid r = true -> storable (q_radix_data r).

(** ** Exactly recoverable traces *)
(** Same record as the one written.  Single walks carry four entries, so they
    are compared as four entries. *)
Definition own_view (q : qrec) (next : N) (taken : bool) : view :=
  mk_view (q_insn q) (q_insn_addr q)
    (optb (q_insn_ra_valid q) (q_insn_ra q)) (optb (q_insn_ps_valid q) (q_insn_ps q))
    (optb (q_ginsn_ps_valid q) (q_ginsn_ps q))
    (walk_of (rx_type (q_radix_insn q)) (q_radix_insn q))
    (optb (q_data_addr_valid q) (q_data_addr q))
    (optb (q_data_ra_valid q) (q_data_ra q)) (optb (q_data_ps_valid q) (q_data_ps q))
    (optb (q_gdata_ps_valid q) (q_gdata_ps q))
    (walk_of (rx_type (q_radix_data q)) (q_radix_data q))
    (q_branch q) (q_cond q) taken next.

Fixpoint own_views (prev : qrec) (rs : list qrec) : list view :=
  match rs with
  | [] => [own_view prev ((q_insn_addr prev + 4) mod 2 ^ 64) false]
  | cur :: rs' => own_view prev (q_insn_addr cur) (discontinuity prev cur) :: own_views cur rs'
  end.
Definition as_written (rs : list qrec) : list view :=
  match rs with [] => [] | r :: rs' => own_views r rs' end.

(** Real addresses agree with the effective address below the page size, and
    the page number fits 32 bits. *)
Definition ra_exact (ra : N) (ps : option N) (ea : N) : Prop :=
  ra mod 2 ^ dflt ps 16 = ea mod 2 ^ dflt ps 16 /\ ra / 2 ^ dflt ps 16 < 2 ^ 32.

Definition itrans (q : qrec) : option N * option N * option N * option wk :=
  let ps := optb (q_insn_ps_valid q) (q_insn_ps q) in
  (optb (q_insn_ra_valid q) (q_insn_ra q / 2 ^ dflt ps 16), ps,
   optb (q_ginsn_ps_valid q) (q_ginsn_ps q),
   walk_of (rx_type (q_radix_insn q)) (q_radix_insn q)).

(** Each record by itself. [ty]: kind of the single walks of this trace. *)
Definition exact (ty : N) (q : qrec) : Prop :=
  (q_insn_ra_valid q = true ->
     ra_exact (q_insn_ra q) (optb (q_insn_ps_valid q) (q_insn_ps q)) (q_insn_addr q)) /\
  (q_data_ra_valid q = true ->
     ra_exact (q_data_ra q) (optb (q_data_ps_valid q) (q_data_ps q))
              (if q_data_addr_valid q then q_data_addr q else 0)) /\
  (walked (q_radix_insn q) = true -> q_insn_ra_valid q = true) /\
  (walked (q_radix_data q) = true -> q_data_ra_valid q = true) /\
  (single (q_radix_insn q) = true -> rx_type (q_radix_insn q) = ty) /\
  (q_cond q = true -> q_branch q = true /\ is_unconditional_branch (q_insn q) = false) /\
  (is_conditional_branch (q_insn q) = true -> q_branch q = true).

(** Consecutive records: translation changes only at discontinuities, and then
    nothing that was known becomes unknown; taken branches are flagged; the
    page-shift bytes are not mixed up. *)
Definition exact_pair (prev cur : qrec) : Prop :=
  (discontinuity prev cur = false -> itrans cur = itrans prev) /\
  (q_insn_ra_valid prev = true -> q_insn_ra_valid cur = true) /\
  (q_insn_ps_valid prev = true -> q_insn_ps_valid cur = true) /\
  (q_ginsn_ps_valid prev = true -> q_ginsn_ps_valid cur = true) /\
  (walked (q_radix_insn prev) = true -> walked (q_radix_insn cur) = true) /\
  (discontinuity prev cur = true -> q_branch prev = true) /\
  (swapped prev cur = true -> q_data_ps prev = q_ginsn_ps cur) /\
  (single (q_radix_data prev) = true -> rx_type (q_radix_data prev) = GUEST_REAL ->
   discontinuity prev cur = true -> single (q_radix_insn cur) = true ->
   rx_type (q_radix_insn cur) = GUEST_REAL).

Fixpoint exact_from (ty : N) (prev : qrec) (rs : list qrec) : Prop :=
  match rs with
  | [] => True
  | cur :: rs' => exact ty cur /\ exact_pair prev cur /\ exact_from ty cur rs'
  end.
(** The kind is carried by the header only, i.e. by the first record. *)
Definition recoverable (rs : list qrec) : Prop :=
  match rs with
  | [] => True
  | r :: rs' =>
      let ty := if single (q_radix_insn r) then rx_type (q_radix_insn r) else 0 in
      exact ty r /\ exact_from ty r rs'
  end.
