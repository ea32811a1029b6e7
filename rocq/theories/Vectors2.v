(** The self tests of qtlib (qtlib/tests, run by "make check"), in the model. *)
Require Import NArith List Bool.
Require Import Verif.Codec_Types Verif.Writer_Model Verif.Reader_Model.
Import ListNotations.
Local Open Scope N_scope.

(** run_qtwriter, then run_qtreader *)
Definition written (magic : N) (rs : list qrec) : list N :=
  match write_trace magic rs with inr b => b | inl _ => [] end.
Definition seen (rs : list qrec) : list qrec :=
  List.map o_q (fst (read_trace false false [0; 0; 0; 0] (written 0 rs))).

(* qtlib/tests/basictest.c: a trace without records *)
Example basictest :
  match qtreader_initialize (written 0xcafe []) with
  | ROk (s, _) => r_magic s = 0xcafe /\ r_next_addr s = 4
  | _ => False
  end.
Proof. vm_compute. split; reflexivity. Qed.

(* qtlib/tests/guestpagetest.c *)
Definition guest_page (shift : N) (data : bool) : qrec :=
  mk_qrec 0xcafef00d 0 false 0 false 0 false 0 false 0 false 0 false false
          true shift data (if data then 9 else 0) zero_radix zero_radix.
Example guestpagetest :
  match seen [guest_page 12 false; guest_page 13 false; guest_page 13 true] with
  | [a; b; c] =>
      q_insn a = 0xcafef00d /\
      (q_ginsn_ps_valid a, q_ginsn_ps a) = (true, 12) /\
      (q_ginsn_ps_valid b, q_ginsn_ps b) = (true, 13) /\
      (q_gdata_ps_valid c, q_gdata_ps c) = (true, 9)
  | _ => False
  end.
Proof. vm_compute. repeat split; reflexivity. Qed.

(* qtlib/tests/radixtest.c, realonradixtest.c: [ty] the kind of walk *)
Definition one_walk (ty base : N) : radix :=
  mk_radix ty 4 1 ([base + 0xd; base + 0x1d; base + 0x2d; base + 0x3d] :: repeat (repeat 0 4) 4)
           (repeat 0 4) (repeat 0 5).
Definition radix_rec (i d : radix) (data : bool) : qrec :=
  mk_qrec 0x6000000 0 true 0x100 false 0 data 0 data (if data then 0xc0000000 else 0) false 0
          false false false 0 false 0 i (if data then d else zero_radix).
Definition radix_test (i d : radix) : list qrec := [radix_rec i d false; radix_rec i d true].
Definition walk_seen (r : radix) : N * N * list N :=
  (rx_type r, rx_nr_ptes r, hd [] (rx_host_ptes r)).
Definition check_single (ty : N) : Prop :=
  match seen (radix_test (one_walk ty 0xdeadf000) (one_walk ty 0xcafef000)) with
  | [a; b] =>
      q_insn a = 0x6000000 /\
      walk_seen (q_radix_insn a) = (ty, 4, [0xdeadf00d; 0xdeadf01d; 0xdeadf02d; 0xdeadf03d]) /\
      walk_seen (q_radix_data b) = (ty, 4, [0xcafef00d; 0xcafef01d; 0xcafef02d; 0xcafef03d])
  | _ => False
  end.
Example radixtest : check_single HOST_RADIX.
Proof. vm_compute. repeat split; reflexivity. Qed.
Example realonradixtest : check_single GUEST_REAL.
Proof. vm_compute. repeat split; reflexivity. Qed.

(* qtlib/tests/radixonradixtest.c *)
Definition from (b : N) (n : nat) : list N := List.map (fun i => b + N.of_nat i) (seq 0 n).
Definition walks_i : radix :=
  mk_radix UNSPECIFIED 4 5 (List.map (fun v => repeat v 4) (from 0xdeadf00 5))
           (from 0xbeef00 4) (from 0xfeed00 5).
Definition walks_d : radix :=
  mk_radix UNSPECIFIED 4 5 (List.map (fun v => [v; v; 0; 0]) (from 0xcafef00 5))
           (from 0xfade00 4) (from 0xbead00 5).
Example radixonradixtest :
  match seen (radix_test walks_i walks_d) with
  | [a; b] => q_radix_insn a = walks_i /\ q_radix_data b = walks_d
  | _ => False
  end.
Proof. vm_compute. split; reflexivity. Qed.
