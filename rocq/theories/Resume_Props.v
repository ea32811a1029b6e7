(** Property C76: walks resumed from the page walk caches. *)
Require Import NArith ZArith List Bool Lia.
Require Import ZifyBool ZifyN ZifyNat.
Require Import Verif.Word Verif.Codec_Types Verif.Pwc_Model Verif.Pwc_Spec.
Require Import Verif.Xlate_Model Verif.Xlate_Spec Verif.Resume_Spec Verif.Resume_Proofs5 Verif.Resume_Proofs6.
Import ListNotations.
Local Open Scope N_scope.

(** While the page tables do not change and nothing is pending, every walk
    that leaves out only what earlier walks showed is decoded as the complete
    walk, whatever the order and the sharing of the walks. *)
Theorem C76_resumed : forall T es, tables_ok T -> events_ok T [] es ->
  decode_all xlate_init es = XOk (map (answer T) es).
Proof. exact trace_resumed. Qed.
Print Assumptions C76_resumed.

(** Leaving out nothing is the complete walk of C28. *)
Theorem C76_nothing_left_out : forall t,
  cut_records t (mk_cut (O, true) (map (fun _ => Some (O, true)) (fw_guest t)) O) = full_records t.
Proof. exact no_cut_full. Qed.
Print Assumptions C76_nothing_left_out.

(** Complete walks of guest real addresses. *)
Theorem C76_guest_real : forall st x m h guest level a r, xlate_wf x -> Forall xlate_wf (xs_partial st) ->
  Forall (fun n => ~ overlap n x) (xs_partial st) ->
  host_ok h -> (length (hw_ptes h) = 4%nat -> guest = true /\ level <= 1) ->
  records_of x = host_pte_records (hw_ptes h) ++ [mk_walk true false guest true level (hw_ra h)] ->
  m_hv m = false -> a < 2 ^ 64 -> r < 2 ^ 64 ->
  let rec := mk_radix GUEST_REAL (N.of_nat (length (hw_ptes h))) 1
    (fill 4 (hw_ptes h) :: repeat [0; 0; 0; 0] 4) [0; 0; 0; 0] [0; 0; 0; 0; 0] in
  let s := match length (hw_ptes h) with 2%nat => 30 | 3%nat => 21 | _ => if level =? 0 then 12 else 16 end in
  exists p e, xlate_decode st x m false a r = XOk (mk_xst p e (xs_partial st), Some (rec, s, 0))
    /\ erat_insert (xs_erat st) s a r rec s = Some e.
Proof. exact decode_real. Qed.
Print Assumptions C76_guest_real.

(** ** A machine
    Directories at fixed places, one per 16; host pages of 1G, or of 64K and
    (odd entries of the third level) 2M; guest pages of 4K. *)
Definition ex_base (l : N) (y : xaddr) : N :=
  (if Z.eqb (xa_msr y) 0 then 0x100000 else 0x1000000)
  + l * 0x200000 + 0x10000 * (dir l (xa_address y) mod 16).
Definition ex_leaf (big : bool) (l : N) (y : xaddr) : bool :=
  negb (Z.eqb (xa_msr y) 0)
  && (if big then l =? XLATE_PUD else (l =? XLATE_PMD) && N.odd (entry l (xa_address y))).
Definition ex_kind (y : xaddr) : N := if Z.eqb (xa_msr y) 0 then XLATE_4K_PTE else XLATE_64K_PTE.
Definition ex_page (s : N) (y : xaddr) : N :=
  (if Z.eqb (xa_msr y) 0 then 4096 else 8192) + xa_address y mod 2 ^ 52 / 2 ^ s mod 1024.
Definition ex_T (big : bool) : tables := mk_tables ex_base (ex_leaf big) ex_kind ex_page.
Lemma ids_msr : forall x y, same_ids x y = true -> xa_msr x = xa_msr y.
Proof. intros x y H. unfold same_ids in H. lia. Qed.
Lemma dir_of_same : forall l x y, same_dir l x l y = true ->
  xa_msr x = xa_msr y /\ dir l (xa_address x) = dir l (xa_address y).
Proof.
  intros l x y H. unfold same_dir in H. apply andb_prop in H as [H1 H2]. apply andb_prop in H1 as [_ H1].
  split; [now apply ids_msr|now apply N.eqb_eq].
Qed.
Lemma ex_T_ok : forall big, tables_ok (ex_T big).
Proof.
  intro big. unfold tables_ok, ex_T. cbn [tb_base tb_leaf tb_kind tb_page].
  split; [|split; [|split; [|split; [|split; [|split]]]]].
  - intros l x y _ H. destruct (dir_of_same l x y H) as [E1 E2]. unfold ex_base. now rewrite E1, E2.
  - intros l x Hl. unfold ex_base. pose proof (N.mod_lt (dir l (xa_address x)) 16 ltac:(discriminate)) as Hm.
    assert (Hw : 2 ^ width l <= 8192) by (destruct Hl as [->|[->|[->|[->| ->]]]]; apply N.leb_le; reflexivity).
    assert (Hl' : l <= 16) by (destruct Hl as [->|[->|[->|[->| ->]]]]; apply N.leb_le; reflexivity).
    change (2 ^ 64) with 18446744073709551616. destruct (Z.eqb _ _); lia.
  - intros l x y _ H. unfold same_entry in H. apply andb_prop in H as [H1 H2].
    destruct (dir_of_same l x y H1) as [E1 _]. unfold ex_leaf. rewrite E1. apply N.eqb_eq in H2. now rewrite H2.
  - intro x. unfold ex_kind. destruct (Z.eqb _ _); [now left|now right].
  - intros l x y _ H. destruct (dir_of_same l x y H) as [E1 _]. unfold ex_kind. now rewrite E1.
  - intros s x y _ H. unfold same_page in H. apply andb_prop in H as [H1 H2]. apply andb_prop in H1 as [_ H1].
    unfold ex_page. apply N.eqb_eq in H2. now rewrite (ids_msr x y H1), H2.
  - intros s x Hs. unfold ex_page.
    pose proof (N.mod_lt (xa_address x mod 2 ^ 52 / 2 ^ s) 1024 ltac:(discriminate)) as Hm.
    set (u := _ mod 1024) in *. clearbody u.
    assert (Hp : 2 ^ s <= 2 ^ 30) by (apply N.pow_le_mono_r; [discriminate|];
      destruct Hs as [->|[->|[->| ->]]]; apply N.leb_le; reflexivity).
    transitivity (16384 * 2 ^ 30); [|apply N.leb_le; reflexivity].
    apply N.mul_le_mono; [destruct (Z.eqb _ _); lia|exact Hp].
Qed.

(** Three walks of a process: the first complete, the second of the next guest
    page, in the same host page, the third of a guest page in another host
    page. *)
Definition ex_x (ws : list walk) : xlate :=
  mk_xlate true 1 42 (length ws) (ws ++ repeat zero_walk (38 - length ws)).
Definition ex_usr : msr := mk_msr false true.
Definition ex_rq (big : bool) (t : option (N * N)) (a : N) : request :=
  let g := real_at (ex_T big) (in_guest 1 42 a) in
  mk_rq 1 42 a t g (real_at (ex_T big) (in_host 1 g)) 0 1.
Definition ex_event (big : bool) (t : option (N * N)) (a : N) (c : cut) : event :=
  let q := ex_rq big t a in
  mk_event q c (ex_x (cut_records (whole_walk (ex_T big) q) c)) ex_usr.
Definition ex_first (big : bool) : event :=
  ex_event big (Some (0x100, 0x20010)) 0x10000321 (mk_cut (O, true) (repeat (Some (O, true)) 4) O).
Definition ex_second : event :=
  ex_event false None 0x10001345 (mk_cut (O, true) [None; None; None; Some (4%nat, false)] 4).
Definition ex_third : event :=
  ex_event false None 0x10012345 (mk_cut (O, true) [None; None; Some (3%nat, true); Some (4%nat, true)] 3).
Ltac each H := vm_compute in H; repeat (destruct H as [H|H]; [subst|]); try destruct H.
Ltac find_in := first [left; reflexivity | right; find_in].
Ltac rq_tac :=
  split; [apply Nat.leb_le; vm_compute; reflexivity|
  split; [intros _; split; [apply N.leb_le; vm_compute; reflexivity|vm_compute; reflexivity]|
  split; [discriminate|
  split; [let y := fresh in let Hy := fresh in let Hd := fresh in intros y Hy Hd; each Hy;
          (split; [apply N.leb_le; vm_compute; reflexivity|first [vm_compute; reflexivity|vm_compute in Hd; discriminate Hd]])|
  split; [vm_compute; reflexivity|
  split; [vm_compute; reflexivity|apply N.ltb_lt; vm_compute; reflexivity]]]]]].
Ltac entry_tac T q :=
  let go z := (exists q, z; split; [find_in|split; [vm_compute; find_in|vm_compute; reflexivity]]) in
  let rec try_all l := match l with ?z :: ?r => first [go z | try_all r] end in
  let zs := eval vm_compute in (rq_guest q :: hosts T q) in try_all zs.
Ltac page_tac T q :=
  let go z := (exists q, z; split; [find_in|split; [vm_compute; find_in|split; vm_compute; reflexivity]]) in
  let rec try_all l := match l with ?z :: ?r => first [go z | try_all r] end in
  let zs := eval vm_compute in (hosts T q) in try_all zs.
Ltac host_tac T q :=
  split; [apply Nat.leb_le; vm_compute; reflexivity|
  split; [let l := fresh in let Hl := fresh in intros l Hl; each Hl; entry_tac T q|
          first [discriminate | intros _; split; [vm_compute; reflexivity|page_tac T q]]]].
Ltac level_tac T q :=
  unfold cut_level_ok;
  match goal with
  | |- cut_host_ok _ _ _ _ => host_tac T q
  | |- _ => split; [entry_tac T q|host_tac T q]
  end.
Ltac ev_tac :=
  split; [split; [vm_compute; reflexivity|apply Nat.leb_le; vm_compute; reflexivity]|
  repeat split; vm_compute; reflexivity].
Example C76_ex : tables_ok (ex_T false) /\ events_ok (ex_T false) [] [ex_first false; ex_second; ex_third]
  /\ map (fun e => length (records_of (ev_xlate e))) [ex_first false; ex_second; ex_third] = [36%nat; 3%nat; 8%nat]
  /\ decode_all xlate_init [ex_first false; ex_second; ex_third]
     = XOk (map (answer (ex_T false)) [ex_first false; ex_second; ex_third])
  /\ map (fun o => match o with Some (r, h, g) => (rx_guest_real r, h, g) | None => ([], 0, 0) end)
         (map (answer (ex_T false)) [ex_second; ex_third])
     = [([0x100000; 0x300000; 0x500400; 0x900008; 0x1001345], 16, 12);
        ([0x100000; 0x300000; 0x500400; 0x900090; 0x1012345], 16, 12)].
Proof.
  split; [apply ex_T_ok|]. split; [|split; [vm_compute; reflexivity|split; vm_compute; reflexivity]].
  split; [|split; [|split; [|exact I]]].
  - split; [rq_tac|]. split; [|ev_tac].
    split; [intros pa pr Hp; change (rq_table _) with (Some (0x100, 0x20010)) in Hp; injection Hp as <- <-;
            host_tac (ex_T false) (ev_rq (ex_first false))|].
    split; [|split; [vm_compute; repeat constructor; discriminate|host_tac (ex_T false) (ev_rq (ex_first false))]].
    change (steps _ _) with [XLATE_PGD; XLATE_PUD; XLATE_PMD; XLATE_4K_PTE]. cbn [ev_cut ct_guest ex_first ex_event repeat].
    repeat apply Forall2_cons; try apply Forall2_nil; unfold cut_level_ok; host_tac (ex_T false) (ev_rq (ex_first false)).
  - split; [rq_tac|]. split; [|ev_tac].
    split; [intros pa pr Hp; discriminate Hp|].
    split; [|split; [vm_compute; repeat constructor; discriminate|host_tac (ex_T false) (ev_rq (ex_first false))]].
    change (steps _ _) with [XLATE_PGD; XLATE_PUD; XLATE_PMD; XLATE_4K_PTE]. cbn [ev_cut ct_guest ex_second ex_event].
    repeat apply Forall2_cons; try apply Forall2_nil; level_tac (ex_T false) (ev_rq (ex_first false)).
  - split; [rq_tac|]. split; [|ev_tac].
    split; [intros pa pr Hp; discriminate Hp|].
    split; [|split; [vm_compute; repeat constructor; discriminate|host_tac (ex_T false) (ev_rq (ex_first false))]].
    change (steps _ _) with [XLATE_PGD; XLATE_PUD; XLATE_PMD; XLATE_4K_PTE]. cbn [ev_cut ct_guest ex_third ex_event].
    repeat apply Forall2_cons; try apply Forall2_nil; level_tac (ex_T false) (ev_rq (ex_first false)).
Qed.

(** Walks of guest real addresses are another matter: the entries the
    partition's tables hold for them are put into the cache under the same
    keys as the tables of the process (xlate.c:965, [mk_xlate_addr(0, …)]), so
    after such a walk a resumed walk is decoded to the wrong entries. *)
Definition ex_resumed : event :=
  ex_event true None 0x10001345 (mk_cut (O, true) [None; None; None; Some (2%nat, false)] 2).
Definition ex_real : xlate :=
  let h := host_at (ex_T true) (in_host 1 0x2000) in
  ex_x (host_pte_records (hw_ptes h) ++ [mk_walk true false true true 0 (hw_ra h)]).
Definition ex_real_mode : msr := mk_msr false false.
Theorem C76_real_mode_refuted : exists T e1 e2 x a r st1 st2 st3 rec1 rec2,
  tables_ok T /\ events_ok T [] [e1; e2]
  /\ xlate_wf x /\ x_lpid x = rq_lpid (ev_rq e2) /\ x_pid x = rq_pid (ev_rq e2)
  /\ records_of x = host_pte_records (hw_ptes (host_at T (in_host (x_lpid x) a))) ++ [mk_walk true false true true 0 r]
  /\ r = real_at T (in_host (x_lpid x) a)
  /\ xlate_decode xlate_init (ev_xlate e1) (ev_msr e1) true (rq_address (ev_rq e1)) (page_4k (rq_real (ev_rq e1)))
     = XOk (st1, answer T e1)
  /\ xlate_decode st1 x ex_real_mode false a r = XOk (st2, Some (rec1, 30, 0))
  /\ xlate_decode st2 (ev_xlate e2) (ev_msr e2) true (rq_address (ev_rq e2)) (page_4k (rq_real (ev_rq e2)))
     = XOk (st3, Some (rec2, 30, 12))
  (* the guest's first entry is said to be the partition's *)
  /\ nth 0 (rx_guest_real rec2) 0 = nth 0 (nth 0 (rx_host_ptes rec1) []) 0
  /\ answer T e2 <> Some (rec2, 30, 12).
Proof.
  exists (ex_T true), (ex_first true), ex_resumed, ex_real, 0x2000, (real_at (ex_T true) (in_host 1 0x2000)).
  do 5 eexists.
  split; [apply ex_T_ok|]. split.
  { split; [|split; [|exact I]].
    - split; [rq_tac|]. split; [|ev_tac].
      split; [intros pa pr Hp; change (rq_table _) with (Some (0x100, 0x20010)) in Hp; injection Hp as <- <-;
              host_tac (ex_T true) (ev_rq (ex_first true))|].
      split; [|split; [vm_compute; repeat constructor; discriminate|host_tac (ex_T true) (ev_rq (ex_first true))]].
      change (steps _ _) with [XLATE_PGD; XLATE_PUD; XLATE_PMD; XLATE_4K_PTE]. cbn [ev_cut ct_guest ex_first ex_event repeat].
      repeat apply Forall2_cons; try apply Forall2_nil; unfold cut_level_ok; host_tac (ex_T true) (ev_rq (ex_first true)).
    - split; [rq_tac|]. split; [|ev_tac].
      split; [intros pa pr Hp; discriminate Hp|].
      split; [|split; [vm_compute; repeat constructor; discriminate|host_tac (ex_T true) (ev_rq (ex_first true))]].
      change (steps _ _) with [XLATE_PGD; XLATE_PUD; XLATE_PMD; XLATE_4K_PTE]. cbn [ev_cut ct_guest ex_resumed ex_event].
      repeat apply Forall2_cons; try apply Forall2_nil; level_tac (ex_T true) (ev_rq (ex_first true)). }
  split; [split; [vm_compute; reflexivity|apply Nat.leb_le; vm_compute; reflexivity]|].
  split; [vm_compute; reflexivity|]. split; [vm_compute; reflexivity|]. split; [vm_compute; reflexivity|].
  split; [vm_compute; reflexivity|].
  split; [vm_compute; reflexivity|]. split; [vm_compute; reflexivity|]. split; [vm_compute; reflexivity|].
  split; [vm_compute; reflexivity|].
  intro Hc. apply (f_equal (fun o => match o with Some (r, _, _) => nth 0 (rx_guest_real r) 0 | None => 0 end)) in Hc.
  vm_compute in Hc. discriminate Hc.
Qed.
Print Assumptions C76_real_mode_refuted.
