(** C41: basic-block vectors. *)
Require Import NArith ZArith List Bool Lia Permutation.
Require Import Verif.Word Verif.Matrix_Model Verif.Matrix_Spec Verif.Matrix_Proofs.
Require Import Verif.Pam_Model Verif.Pam_Spec.
Require Import Verif.Bbv_Model Verif.Bbv_Spec Verif.Bbv_Proofs Verif.Bbv_Proofs2 Verif.Bbv_Proofs3.
Import ListNotations.
Local Open Scope N_scope.

(** Every list of records is a trace of blocks. *)
Theorem C41_trace_exists : forall recs, exists bs rest, trace recs bs rest.
Proof. exact trace_exists. Qed.
Print Assumptions C41_trace_exists.

(** One row per complete interval, one column per block in order of first
    completion; an entry is the number of instructions of the blocks that
    ended in the interval. *)
Theorem C41_vectors : forall junk walk rows0 cols0 period,
  (forall l, Permutation (walk l) l) -> period < 2 ^ 64 -> rows0 <> 0 -> cols0 <> 0 ->
  forall coin recs bs rest, trace recs bs rest -> Forall (fun r => fst r <> MINUS1) recs ->
  let P := N.max period 1 in
  let ks := timed 0 bs in let I := N.of_nat (length recs) / P in
  grows_slowly P cols0 ks I -> fits rows0 cols0 ks I -> I <> 0 ->
  exists m, vectors junk walk rows0 cols0 period coin 0 recs = MOk m /\
    holds m I (N.of_nat (length (firsts (map k_addr ks))) + 1) (vector P ks).
Proof. exact t_vectors. Qed.
Print Assumptions C41_vectors.

(** A row accounts for all instructions of the blocks that ended. *)
Theorem C41_row_sum : forall P ks i,
  sum_to (length (firsts (map k_addr ks)) + 1) (vector P ks i) mod 2 ^ 64 =
  fold_right (fun k s => (if k_end k / P =? i then k_len k mod 2 ^ 32 else 0) + s) 0 ks mod 2 ^ 64.
Proof. exact row_sum. Qed.
Print Assumptions C41_row_sum.

(** With -d the vectors are multiplied by a matrix of signs. *)
Theorem C41_projected : forall junk walk rows0 cols0 period,
  (forall l, Permutation (walk l) l) -> period < 2 ^ 64 -> rows0 <> 0 -> cols0 <> 0 ->
  forall coin dims recs bs rest, trace recs bs rest -> dims <> 0 -> Forall (fun r => fst r <> MINUS1) recs ->
  let P := N.max period 1 in
  let ks := timed 0 bs in let I := N.of_nat (length recs) / P in
  let n := N.of_nat (length (firsts (map k_addr ks))) in
  grows_slowly P cols0 ks I -> fits rows0 cols0 ks I -> I <> 0 ->
  I * dims < 2 ^ 61 -> (n + 1) * dims < 2 ^ 61 ->
  exists m, vectors junk walk rows0 cols0 period coin dims recs = MOk m /\
    holds m I dims (product (n + 1) (vector P ks) (sign_of coin)).
Proof. exact t_projected. Qed.
Print Assumptions C41_projected.

(** The tool prints clusterings of the rows. *)
Theorem C41_tool : forall junk walk rows0 cols0 period coin dims recs m I cols f,
  vectors junk walk rows0 cols0 period coin dims recs = MOk m ->
  holds m I cols f -> I <> 0 -> I < 2 ^ 64 -> no_undef f I cols -> not_far f I cols ->
  exists rs n, (forall fuel, (n <= fuel)%nat -> tool junk walk rows0 cols0 period coin dims 0 fuel recs = POk rs) /\
    rs <> [] /\ (length rs <= 32)%nat /\
    forall i r, nth_error rs i = Some r ->
      clustering (D f cols) I (1 + N.of_nat i) period r /\
      ((S i < length rs)%nat -> fst r <> 0) /\
      (S i = length rs -> (length rs < 32)%nat -> fst r = 0).
Proof. exact t_tool. Qed.
Print Assumptions C41_tool.

(** Distances between projected rows are those of the signed values. *)
Theorem C39_distance_signed : forall f z rows cols,
  (forall a c, a < rows -> c < cols -> f a c = Z.to_N (z a c mod 18446744073709551616)) ->
  (forall a b c, a < rows -> b < rows -> c < cols -> (Z.abs (z a c - z b c) < 9223372036854775808)%Z) ->
  (forall a b, a < rows -> b < rows -> signed_distance z cols a b < 2 ^ 64 - 1) ->
  no_undef f rows cols /\ not_far f rows cols /\
  forall a b, a < rows -> b < rows -> D f cols a b = signed_distance z cols a b.
Proof. exact exact_signed. Qed.
Print Assumptions C39_distance_signed.

(** Blocks at 16 (3 instructions), 64 (1), 16 again (3), 64 (1), an open block;
    intervals of 4 instructions. *)
Definition ex_recs : list rec :=
  [(16, false); (20, false); (24, true); (64, true); (16, false); (20, false); (24, true);
   (128, true); (64, true); (16, false); (20, false); (24, true); (16, false)].
Definition ex_bs : list (list rec) :=
  [[(16, false); (20, false); (24, true)]; [(64, true)]; [(16, false); (20, false); (24, true)];
   [(128, true)]; [(64, true)]; [(16, false); (20, false); (24, true)]].
Definition jnk := fun i : nat => 7777 + N.of_nat i.
Definition coin0 := fun _ _ : N => false.
Example C41_ex_trace : trace ex_recs ex_bs [(16, false)].
Proof.
  split; [reflexivity|]. split; [|repeat constructor].
  repeat (constructor; [first [exists [], (64, true); now repeat constructor
    | exists [], (128, true); now repeat constructor
    | exists [(16, false); (20, false)], (24, true); now repeat constructor]|]). constructor.
Qed.
Example C41_ex : 
  vectors jnk (@rev obj) 1 2 4 coin0 0 ex_recs =
    MOk (mk_matrix 3 4 [3; 1; 0; 0;  3; 0; 1; 0;  3; 1; 0; 0]) /\
  grows_slowly 4 2 (timed 0 ex_bs) 3 /\ fits 1 2 (timed 0 ex_bs) 3 /\
  tool jnk (@rev obj) 1 2 4 coin0 0 0 9 ex_recs = POk [(2, [(0, 3, 3)]); (0, [(0, 3, 2); (4, 7, 1)])].
Proof.
  split; [vm_compute; reflexivity|]. split.
  { intros i Hi. assert (i = 0 \/ i = 1 \/ i = 2) as [-> | [-> | ->]] by lia; vm_compute; discriminate. }
  split; [split; vm_compute; reflexivity|]. vm_compute. reflexivity.
Qed.

(** Instructions after the last complete interval are ignored; a trace shorter
    than an interval makes the tool fail. *)
Theorem C41_short : forall junk walk rows0 cols0 period coin dims my_k fuel recs,
  rows0 * cols0 < 2 ^ 61 -> N.of_nat (length recs) < period -> period < 2 ^ 64 -> dims < 2 ^ 28 ->
  tool junk walk rows0 cols0 period coin dims my_k fuel recs = PErr PExit.
Proof. exact short_exit. Qed.
Print Assumptions C41_short.

(** An interval with many new blocks: columns are doubled only once, and the
    count of a block lands in the row of another interval. *)
Definition many_recs : list rec := [(16, true); (20, true); (24, true); (20, true); (20, true); (20, true)].
Theorem C41_many_blocks_refuted : ~ forall junk walk rows0 cols0 period,
  (forall l, Permutation (walk l) l) -> period < 2 ^ 64 -> rows0 <> 0 -> cols0 <> 0 ->
  forall coin recs bs rest, trace recs bs rest -> Forall (fun r => fst r <> MINUS1) recs ->
  let P := N.max period 1 in
  let ks := timed 0 bs in let I := N.of_nat (length recs) / P in
  fits rows0 cols0 ks I -> I <> 0 ->
  exists m, vectors junk walk rows0 cols0 period coin 0 recs = MOk m /\
    holds m I (N.of_nat (length (firsts (map k_addr ks))) + 1) (vector P ks).
Proof.
  intro H.
  destruct (H jnk (fun l => l) 2 1 3 (fun l => Permutation_refl l) eq_refl ltac:(discriminate) ltac:(discriminate)
    coin0 many_recs (map (fun r => [r]) many_recs) []) as (m & Em & Hm).
  - split; [reflexivity|]. split; [|constructor].
    repeat (constructor; [eexists [], _; repeat split; constructor|]). constructor.
  - repeat (constructor; [discriminate|]). constructor.
  - split; vm_compute; reflexivity.
  - vm_compute. discriminate.
  - assert (E : vectors jnk (fun l => l) 2 1 3 coin0 0 many_recs =
      MOk (mk_matrix 2 4 [1; 1; 0; 0; 1; 3; 0; 0])) by (vm_compute; reflexivity).
    rewrite E in Em. injection Em as <-. destruct Hm as (_ & _ & _ & _ & G).
    specialize (G 1 0 eq_refl eq_refl). vm_compute in G. discriminate G.
Qed.
Print Assumptions C41_many_blocks_refuted.
(** In the last row the store is outside the matrix. *)
Example C41_many_blocks_outside : parse jnk (fun l => l) 1 1 3 [(16, true); (20, true); (24, true)] = MErr MOob.
Proof. vm_compute. reflexivity. Qed.
