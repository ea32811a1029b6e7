Require Import NArith List.
Require Import Verif.Pagemap_Model Verif.Pagemap_Spec Verif.Pagemap_Proofs.
Import ListNotations.
Local Open Scope N_scope.

(** C45: during the first 2^32 lookups every answer is what the kernel says
    now, or what it said for the same page less than the refresh interval
    ago, or, early on and in the first page, a made-up 0. *)
Theorem C45_answers : forall h st a st' pa sh,
  reached h st -> N.of_nat (S (length h)) < 2 ^ 32 ->
  lookup st a = PAns st' pa sh ->
  asked (a_kernel a) (a_ea a) = Some (pa, sh) \/
  recent h (interval a) (a_ea a) pa sh \/
  (a_ea a < 2 ^ sh /\ pa = 0 /\ N.of_nat (S (length h)) < interval a).
Proof. exact answers. Qed.
Print Assumptions C45_answers.

(** The first lookup in a huge page (but the first) asks the kernel. *)
Theorem C45_first_asks : forall h st a,
  reached h st -> N.of_nat (S (length h)) < 2 ^ 32 ->
  2 ^ 21 <= a_ea a -> (forall b, In b h -> ~ same_page 21 (a_ea b) (a_ea a)) ->
  match lookup st a with
  | PAns _ pa sh => asked (a_kernel a) (a_ea a) = Some (pa, sh)
  | _ => asked (a_kernel a) (a_ea a) = None
  end.
Proof. exact first_asks. Qed.
Print Assumptions C45_first_asks.

(** Repeating it at once gives the same answer, whatever the kernel says. *)
Theorem C45_repeat : forall h st a st' pa sh k,
  reached h st -> N.of_nat (S (S (length h))) < 2 ^ 32 ->
  2 ^ 21 <= a_ea a -> (forall b, In b h -> ~ same_page 21 (a_ea b) (a_ea a)) ->
  lookup st a = PAns st' pa sh ->
  exists st'', lookup st' (mk_acc (a_ea a) (a_iside a) k) = PAns st'' pa sh.
Proof. exact repeat_cached. Qed.
Print Assumptions C45_repeat.

(** The very first lookup of an address below 2 MB is answered with physical
    page 0 and a huge page, whatever the kernel says. *)
Theorem C45_zero_refuted : forall k iside,
  exists st', lookup init_state (mk_acc 0x18000 iside k) = PAns st' 0 21.
Proof. intros k []; eexists; rewrite lookup_eq; reflexivity. Qed.
Print Assumptions C45_zero_refuted.

(** After 2^32 lookups the age of an entry starts again at 0: an answer from
    2^32 lookups ago, when the page was last looked up, is given again. *)
Theorem C45_wrap_refuted : exists h st a st' pa,
  reached h st /\ N.of_nat (length h) = 2 ^ 32 /\
  (forall i b, nth_error h i = Some b -> same_page 21 (a_ea b) (a_ea a) -> i = 0%nat) /\
  lookup st a = PAns st' pa 16 /\ asked (a_kernel a) (a_ea a) <> Some (pa, 16).
Proof.
  destruct wrap_history as (st & st' & Hr & Hl).
  exists (first_acc :: repeat other (N.to_nat 4294967295)), st, last_acc, st', (5 * 65536).
  split; [exact Hr|]. split; [exact wrap_length|]. split; [exact wrap_only|].
  split; [exact Hl|]. discriminate.
Qed.
Print Assumptions C45_wrap_refuted.

(** Inside a huge page the answer is the base page that happened to be looked
    up first. *)
Definition huge_at (ea f : N) : acc := mk_acc ea false (frame_at f (2 ^ 22)).
Theorem C45_huge_refuted : exists st st',
  reached [huge_at 0x430000 35] st /\
  lookup st (huge_at 0x450000 37) = PAns st' (35 * 65536) 21 /\
  asked (a_kernel (huge_at 0x450000 37)) 0x450000 = Some (37 * 65536, 21).
Proof.
  eexists. eexists. split; [|split].
  - eapply (reached_ans [] init_state (huge_at 0x430000 35)); [constructor|].
    rewrite lookup_eq. reflexivity.
  - rewrite lookup_eq. reflexivity.
  - reflexivity.
Qed.
Print Assumptions C45_huge_refuted.

(* A frame that changes is noticed by the data side at the hundredth lookup. *)
Fixpoint answers_of (st : pstate) (l : list acc) : list N :=
  match l with
  | [] => []
  | a :: l =>
      match lookup st a with
      | PAns st' pa sh => pa / 65536 :: answers_of st' l
      | PNone st' => answers_of st' l
      | PExit => []
      end
  end.
Example C45_ex :
  answers_of init_state
    (mk_acc 0x500000 false (frame_at 8 0) :: repeat (mk_acc 0x50fff8 false (frame_at 9 0)) 101)
  = repeat 8 100 ++ [9; 9].
Proof. vm_compute. reflexivity. Qed.
(* Two pages with the same index evict each other. *)
Example C45_ex_conflict :
  answers_of init_state
    [mk_acc 0x500000 false (frame_at 8 0); mk_acc 0x10500000 false (frame_at 9 0);
     mk_acc 0x500000 false (frame_at 10 0)] = [8; 9; 10].
Proof. vm_compute. reflexivity. Qed.
