(** C39 and C40: clustering. *)
Require Import NArith ZArith List Bool Lia.
Require Import Verif.Word Verif.Matrix_Model Verif.Matrix_Spec.
Require Import Verif.Pam_Model Verif.Pam_Spec Verif.Pam_Proofs.
Import ListNotations.
Local Open Scope N_scope.

(** The first medoids are the first [wanted] unique points; NULL is returned
    when there are fewer. *)
Theorem C39_initialise : forall m rows cols f, holds m rows cols f -> no_undef f rows cols -> forall wanted,
  (pam_initialise m wanted = POk None /\
     (wanted = 0 \/ exists meds, distinct (D f cols) rows meds /\ N.of_nat (length meds) < wanted /\
        forall q, q < rows -> exists a, In a meds /\ D f cols q a = 0)) \/
  exists s, pam_initialise m wanted = POk (Some s) /\ distinct (D f cols) rows (p_medoids s) /\
    p_cost s = total (D f cols) rows (p_medoids s) /\ N.of_nat (length (p_medoids s)) = wanted.
Proof. exact a_init. Qed.
Print Assumptions C39_initialise.

(** A pass never raises the cost; it lowers it when another pass follows. *)
Theorem C39_iteration : forall m rows cols f, holds m rows cols f -> no_undef f rows cols -> forall s,
  distinct (D f cols) rows (p_medoids s) -> p_cost s = total (D f cols) rows (p_medoids s) ->
  exists s' more, pam_iteration m s = POk (s', more) /\
    distinct (D f cols) rows (p_medoids s') /\ p_cost s' = total (D f cols) rows (p_medoids s') /\
    length (p_medoids s') = length (p_medoids s) /\ p_cost s' <= p_cost s /\
    (more = true -> p_cost s' < p_cost s) /\
    (more = false -> p_cost s' = 0 \/ (s' = s /\ local_optimum (D f cols) rows (p_medoids s) (p_cost s))).
Proof. exact a_iteration. Qed.
Print Assumptions C39_iteration.

(** The passes end, at cost zero or at a local optimum. *)
Theorem C39_terminates : forall m rows cols f, holds m rows cols f -> no_undef f rows cols -> forall s,
  distinct (D f cols) rows (p_medoids s) -> p_cost s = total (D f cols) rows (p_medoids s) ->
  exists s' n, (forall fuel, (n <= fuel)%nat -> pam_loop m fuel s = POk s') /\
    distinct (D f cols) rows (p_medoids s') /\ p_cost s' = total (D f cols) rows (p_medoids s') /\
    length (p_medoids s') = length (p_medoids s) /\ p_cost s' <= p_cost s /\
    (p_cost s' = 0 \/ local_optimum (D f cols) rows (p_medoids s') (p_cost s')).
Proof. exact a_loop. Qed.
Print Assumptions C39_terminates.

(** When coordinates are below 2^63 and distances below 2^64-1 the computed
    distance is the Manhattan distance, and is zero for equal points only. *)
Theorem C39_distance_exact : forall f rows cols, (forall a c, a < rows -> c < cols -> f a c < 2 ^ 63) ->
  (forall a b, a < rows -> b < rows -> manhattan f cols a b < 2 ^ 64 - 1) ->
  no_undef f rows cols /\ not_far f rows cols /\
  forall a b, a < rows -> b < rows -> D f cols a b = manhattan f cols a b.
Proof. exact exact. Qed.
Print Assumptions C39_distance_exact.
Theorem C39_distance_zero : forall f cols a b,
  manhattan f cols a b = 0 <-> forall c, c < cols -> f a c = f b c.
Proof. exact manhattan_zero. Qed.
Print Assumptions C39_distance_zero.

Theorem C40_run : forall m rows cols f, holds m rows cols f -> no_undef f rows cols ->
  rows < 2 ^ 64 -> not_far f rows cols -> forall k period,
  (forall fuel, do_one_pam m fuel k period = PErr PExit) \/
  exists r n, (forall fuel, (n <= fuel)%nat -> do_one_pam m fuel k period = POk r) /\
    clustering (D f cols) rows k period r.
Proof. exact a_run. Qed.
Print Assumptions C40_run.

(** Without -k, numbers of medoids are tried until the cost is zero or 32 is
    reached; the program does not run out of unique points. *)
Theorem C40_sweep : forall m rows cols f, holds m rows cols f -> no_undef f rows cols ->
  rows < 2 ^ 64 -> not_far f rows cols -> forall period, rows <> 0 ->
  exists rs n, (forall fuel, (n <= fuel)%nat -> cluster m fuel 0 period = POk rs) /\
    rs <> [] /\ (length rs <= 32)%nat /\
    forall i r, nth_error rs i = Some r ->
      clustering (D f cols) rows (1 + N.of_nat i) period r /\
      ((S i < length rs)%nat -> fst r <> 0) /\
      (S i = length rs -> (length rs < 32)%nat -> fst r = 0).
Proof. exact a_sweep. Qed.
Print Assumptions C40_sweep.

(** Six intervals of two coordinates. *)
Definition ex6 := mk_matrix 6 2 [0; 0;  1; 0;  9; 9;  0; 1;  8; 9;  9; 9].
Example C39_ex : 
  pam_initialise ex6 2 = POk (Some (mk_pam [0; 1] 51)) /\
  pam_iteration ex6 (mk_pam [0; 1] 51) = POk (mk_pam [2; 0] 3, true) /\
  pam_iteration ex6 (mk_pam [2; 0] 3) = POk (mk_pam [2; 0] 3, false) /\
  pam_initialise ex6 6 = POk None.
Proof. vm_compute. repeat split. Qed.
Example C40_ex : do_one_pam ex6 10 2 100 = POk (3, [(200, 299, 3); (0, 99, 3)]) /\
  option_map (fun rs => map fst rs) (match cluster ex6 10 0 100 with POk r => Some r | _ => None end) =
    Some [51; 3; 2; 1; 0].
Proof. vm_compute. repeat split. Qed.

(** With -k and too few unique points the program exits. *)
Example C40_ex_exit : do_one_pam ex6 10 6 100 = PErr PExit.
Proof. vm_compute. reflexivity. Qed.

Definition far2 := mk_matrix 2 3 [0; 0; 0; 9223372036854775807; 9223372036854775807; 1].
(** A point at distance 2^64-1 is assigned to no medoid: the count of a
    nonexistent medoid is incremented. *)
Theorem C40_far_point_refuted : ~ forall m rows cols f, holds m rows cols f -> no_undef f rows cols ->
  rows < 2 ^ 64 -> forall k period fuel, do_one_pam m fuel k period <> PErr POob.
Proof.
  intro H.
  refine (H far2 2 3 (fun r c => if r =? 0 then 0 else if c =? 2 then 1 else 9223372036854775807) _ _ eq_refl 1 100 5%nat _).
  - repeat split; try reflexivity. intros r c Hr Hc.
    assert (R : r = 0 \/ r = 1) by lia. assert (C : c = 0 \/ c = 1 \/ c = 2) by lia.
    destruct R as [-> | ->]; destruct C as [-> | [-> | ->]]; reflexivity.
  - intros a b c Ha Hb Hc.
    assert (A : a = 0 \/ a = 1) by lia. assert (B : b = 0 \/ b = 1) by lia. assert (C : c = 0 \/ c = 1 \/ c = 2) by lia.
    destruct A as [-> | ->]; destruct B as [-> | ->]; destruct C as [-> | [-> | ->]]; vm_compute; discriminate.
  - vm_compute. reflexivity.
Qed.
Print Assumptions C40_far_point_refuted.
(** Coordinates 2^63 apart: the absolute value is undefined. *)
Theorem C39_undefined_refuted : ~ forall m rows cols f, holds m rows cols f -> forall k,
  exists r, pam_initialise m k = POk r.
Proof.
  intro H. destruct (H (mk_matrix 2 1 [0; 9223372036854775808]) 2 1 (fun r _ => if r =? 0 then 0 else 9223372036854775808)) with (k := 1) as (r & E).
  - repeat split; try reflexivity. intros r c Hr Hc.
    assert (R : r = 0 \/ r = 1) by lia. assert (C : c = 0) by lia. subst c.
    destruct R as [-> | ->]; reflexivity.
  - vm_compute in E. discriminate E.
Qed.
Print Assumptions C39_undefined_refuted.
(** Unequal points at computed distance zero: the distance wraps. *)
Theorem C39_wrapped_refuted : ~ forall m rows cols f, holds m rows cols f -> no_undef f rows cols ->
  forall a b, a < rows -> b < rows -> D f cols a b = 0 -> forall c, c < cols -> f a c = f b c.
Proof.
  intro H. set (f := fun r c : N => if r =? 0 then 0 else if c =? 2 then 2 else 9223372036854775807).
  assert (E : f 0 0 = f 1 0).
  { refine (H (mk_matrix 2 3 [0; 0; 0; 9223372036854775807; 9223372036854775807; 2]) 2 3 f _ _ 0 1 eq_refl eq_refl _ 0 eq_refl).
    - repeat split; try reflexivity. intros r c Hr Hc.
      assert (R : r = 0 \/ r = 1) by lia. assert (C : c = 0 \/ c = 1 \/ c = 2) by lia.
      destruct R as [-> | ->]; destruct C as [-> | [-> | ->]]; reflexivity.
    - intros a b c Ha Hb Hc.
      assert (A : a = 0 \/ a = 1) by lia. assert (B : b = 0 \/ b = 1) by lia. assert (C : c = 0 \/ c = 1 \/ c = 2) by lia.
      destruct A as [-> | ->]; destruct B as [-> | ->]; destruct C as [-> | [-> | ->]]; vm_compute; discriminate.
    - vm_compute. reflexivity. }
  discriminate E.
Qed.
Print Assumptions C39_wrapped_refuted.
