(** A decoder looks at some bits of a word; the names of the table agree with
    it on all words when they do on the values of those bits that the masks of
    the table leave open. *)
Require Import NArith List Bool String Lia Arith.
From Coq Require Import ZifyN ZifyNat ZifyBool.
Require Import Verif.Word Verif.Opcode_Table Verif.Stats_Model Verif.Stats_Spec Verif.Opcode_Spec.
Import ListNotations.
Local Notation length := List.length.
Local Open Scope N_scope.

(** ** Parts of a word *)
Fixpoint subs (bs : list N) : list N :=
  match bs with
  | [] => [0]
  | b :: r => let l := subs r in l ++ List.map (N.lor (2 ^ b)) l
  end.
Definition positions : list N := List.map N.of_nat (seq 0 32).
Definition submasks (m : N) : list N := subs (filter (N.testbit m) positions).

Lemma subs_in : forall bs f, (forall i, N.testbit f i = true -> In i bs) -> NoDup bs -> In f (subs bs).
Proof.
  induction bs as [|b bs IH]; intros f Hf Hn; cbn [subs].
  - left. symmetry. apply N.bits_inj_0. intros i. destruct (N.testbit f i) eqn:E; [destruct (Hf i E)|reflexivity].
  - inversion_clear Hn as [|? ? Hb Hn']. apply in_or_app. destruct (N.testbit f b) eqn:E.
    + right. apply in_map_iff. exists (N.clearbit f b). split.
      * apply N.bits_inj. intros i. rewrite N.lor_spec, N.clearbit_eqb, N.pow2_bits_eqb.
        destruct (N.eqb_spec b i) as [->|].
        -- rewrite E. reflexivity.
        -- rewrite andb_true_r. reflexivity.
      * apply IH; [|assumption]. intros i Hi. rewrite N.clearbit_eqb in Hi. apply andb_true_iff in Hi as [Hi Hne].
        destruct (Hf i Hi) as [->|H]; [rewrite N.eqb_refl in Hne; discriminate Hne|assumption].
    + left. apply IH; [|assumption]. intros i Hi. destruct (Hf i Hi) as [->|H]; [congruence|assumption].
Qed.
Lemma positions_in : forall i, i < 32 -> In i positions.
Proof. intros i Hi. unfold positions. apply in_map_iff. exists (N.to_nat i). rewrite in_seq. lia. Qed.
Lemma positions_nodup : NoDup positions.
Proof. unfold positions. apply FinFun.Injective_map_NoDup; [|apply seq_NoDup]. intros a b H. lia. Qed.
Lemma testbit_small : forall w i, w < 2 ^ 32 -> N.testbit w i = true -> i < 32.
Proof.
  intros w i Hw Hi. destruct (N.ltb_spec i 32) as [|Hge]; [assumption|exfalso].
  destruct (N.eq_dec w 0) as [->|Hz]; [rewrite N.bits_0 in Hi; discriminate Hi|].
  rewrite N.bits_above_log2 in Hi; [discriminate Hi|].
  apply N.lt_le_trans with 32; [|assumption]. apply N.log2_lt_pow2; lia.
Qed.
Lemma submasks_in : forall w m, w < 2 ^ 32 -> In (N.land w m) (submasks m).
Proof.
  intros w m Hw. apply subs_in.
  - intros i Hi. rewrite N.land_spec in Hi. apply andb_true_iff in Hi as [Hi Hm]. apply filter_In. split; [|assumption].
    apply positions_in. apply (testbit_small w); assumption.
  - apply NoDup_filter. apply positions_nodup.
Qed.

(** ** Checking a decoder *)
Section CHECK.
  Variable A : Type.
  Variable dec : N -> A.
  (** The bits it looks at, for a primary opcode *)
  Variable dm : N -> N.
  Hypothesis dep : forall w, w < 2 ^ 32 -> dec w = dec (N.land w (dm (N.shiftr w 26))).
  Variable good : string -> A -> bool.

  Definition in_dialect (e : opcode) : bool := negb (N.land (oc_flags e) dialect =? 0).
  Definition shadows (known r : N) (j : opcode) : bool :=
    in_dialect j && (N.ldiff (oc_mask j) known =? 0) && (N.land r (oc_mask j) =? oc_opcode j).
  Definition check_entry (prior : list opcode) (e : opcode) : bool :=
    if in_dialect e then
      let m := dm (N.shiftr (oc_opcode e) 26) in
      forallb (fun f =>
        if good (oc_name e) (dec (N.lor (N.land (oc_opcode e) m) f)) then true
        else existsb (shadows (N.lor (oc_mask e) m) (N.lor (oc_opcode e) f)) prior)
        (submasks (N.ldiff m (oc_mask e)))
    else true.
  Fixpoint check_all (prior t : list opcode) : bool :=
    match t with
    | [] => true
    | e :: t' => if check_entry prior e then check_all (e :: prior) t' else false
    end.

  (** Entries of 32 bits with the opcode within the mask, and all of the
      primary opcode *)
  Definition proper (e : opcode) : bool :=
    (oc_mask e <? 2 ^ 32) && (N.ldiff (oc_opcode e) (oc_mask e) =? 0)
    && (N.land (oc_mask e) 0xfc000000 =? 0xfc000000).

  Lemma first_hit_split : forall t w k, first_hit dialect (List.map po_of t) w = Some k ->
    exists pre e post, t = pre ++ e :: post /\ length pre = k
      /\ hit dialect w (po_of e) = true
      /\ Forall (fun j => hit dialect w (po_of j) = false) pre.
  Proof.
    induction t as [|e t IH]; intros w k; cbn [first_hit List.map]; [discriminate|].
    destruct (hit dialect w (po_of e)) eqn:E.
    - intros [= <-]. exists [], e, t. repeat split; [assumption|constructor].
    - destruct (first_hit dialect (List.map po_of t) w) as [i|] eqn:F; [|discriminate].
      intros [= <-]. destruct (IH w i F) as (pre & x & post & -> & <- & Hh & Hp).
      exists (e :: pre), x, post. repeat split; [assumption|constructor; assumption].
  Qed.
  Lemma check_all_split : forall pre prior e post, check_all prior (pre ++ e :: post) = true ->
    check_entry (rev pre ++ prior) e = true.
  Proof.
    induction pre as [|x pre IH]; intros prior e post; cbn [app check_all rev].
    - destruct (check_entry prior e); [reflexivity|discriminate].
    - destruct (check_entry prior x); [|discriminate]. intros H. apply IH in H. rewrite <- app_assoc. exact H.
  Qed.
  Lemma hit_proper : forall e w, proper e = true ->
    hit dialect w (po_of e) = (N.land w (oc_mask e) =? oc_opcode e) && in_dialect e.
  Proof.
    intros e w H. unfold proper in H. unfold hit, in_dialect, po_of. cbn [po_mask po_opcode po_flags].
    apply andb_true_iff in H as [H _]. apply andb_true_iff in H as [Hm Ho].
    rewrite (N.mod_small (oc_mask e)) by lia. rewrite (N.mod_small (oc_opcode e)); [reflexivity|].
    apply N.eqb_eq in Ho.
    assert (E : oc_opcode e = N.land (oc_opcode e) (oc_mask e)).
    { apply N.bits_inj. intros i. rewrite N.land_spec.
      pose proof (f_equal (fun x => N.testbit x i) Ho) as Hi. cbn beta in Hi. rewrite N.ldiff_spec, N.bits_0 in Hi.
      destruct (N.testbit (oc_opcode e) i), (N.testbit (oc_mask e) i); cbn in *; congruence. }
    rewrite E. destruct (N.eq_dec (oc_mask e) 0) as [->|Hz]; [rewrite N.land_0_r; lia|].
    destruct (N.eq_dec (N.land (oc_opcode e) (oc_mask e)) 0) as [->|Hz2]; [lia|].
    apply N.log2_lt_pow2; [lia|]. eapply N.le_lt_trans; [apply N.log2_land|].
    eapply N.le_lt_trans; [apply N.le_min_r|]. apply N.log2_lt_pow2; lia.
  Qed.
  Lemma major_of : forall e w, proper e = true -> w < 2 ^ 32 -> N.land w (oc_mask e) = oc_opcode e ->
    N.shiftr (oc_opcode e) 26 = N.shiftr w 26.
  Proof.
    intros e w Hp Hw <-. unfold proper in Hp. apply andb_true_iff in Hp as [_ Hc]. apply N.eqb_eq in Hc.
    apply N.bits_inj. intros i. rewrite !N.shiftr_spec, N.land_spec by lia.
    destruct (N.testbit w (i + 26)) eqn:E; [|reflexivity]. cbn [andb].
    pose proof (testbit_small w _ Hw E) as Hi.
    pose proof (f_equal (fun x => N.testbit x (i + 26)) Hc) as Ht. cbn beta in Ht. rewrite N.land_spec in Ht.
    assert (T : N.testbit 0xfc000000 (i + 26) = true).
    { assert (I : i = 0 \/ i = 1 \/ i = 2 \/ i = 3 \/ i = 4 \/ i = 5) by lia.
      destruct I as [->|[->|[->|[->|[->| ->]]]]]; reflexivity. }
    rewrite T in Ht. rewrite andb_true_r in Ht. exact Ht.
  Qed.

  Lemma check_entry_ok : forall pre e w, proper e = true -> Forall (fun j => proper j = true) pre ->
    w < 2 ^ 32 -> check_entry (rev pre) e = true -> hit dialect w (po_of e) = true ->
    Forall (fun j => hit dialect w (po_of j) = false) pre -> good (oc_name e) (dec w) = true.
  Proof.
    intros pre e w He Hpre Hw Hc Hh Hn. rewrite hit_proper in Hh by assumption.
    apply andb_true_iff in Hh as [Hm Hd]. apply N.eqb_eq in Hm.
    unfold check_entry in Hc. rewrite Hd in Hc. cbv zeta in Hc.
    rewrite (major_of e w He Hw Hm) in Hc. rewrite (dep w Hw). set (m := dm (N.shiftr w 26)) in *.
    rewrite forallb_forall in Hc. specialize (Hc (N.land w (N.ldiff m (oc_mask e))) (submasks_in _ _ Hw)).
    cbv beta in Hc.
    replace (N.lor (N.land (oc_opcode e) m) (N.land w (N.ldiff m (oc_mask e)))) with (N.land w m) in Hc.
    2:{ rewrite <- Hm. apply N.bits_inj. intros i. rewrite N.lor_spec, !N.land_spec, N.ldiff_spec.
        destruct (N.testbit w i), (N.testbit m i), (N.testbit (oc_mask e) i); reflexivity. }
    destruct (good (oc_name e) (dec (N.land w m))); [reflexivity|exfalso].
    apply existsb_exists in Hc as (j & Hj & Hs). apply in_rev in Hj. rewrite Forall_forall in Hpre, Hn.
    specialize (Hpre j Hj). specialize (Hn j Hj). cbv beta in Hpre, Hn. rewrite hit_proper in Hn by assumption.
    unfold shadows in Hs. apply andb_true_iff in Hs as [Hs Hs3]. apply andb_true_iff in Hs as [Hs1 Hs2].
    rewrite Hs1, andb_true_r in Hn. apply N.eqb_neq in Hn. apply Hn. apply N.eqb_eq in Hs2, Hs3. rewrite <- Hs3.
    apply N.bits_inj. intros i. pose proof (f_equal (fun x => N.testbit x i) Hs2) as Hi. cbn beta in Hi.
    rewrite <- Hm. rewrite N.ldiff_spec, N.lor_spec, N.bits_0 in Hi.
    rewrite !N.land_spec, !N.lor_spec, !N.land_spec, N.ldiff_spec.
    destruct (N.testbit w i), (N.testbit m i), (N.testbit (oc_mask e) i), (N.testbit (oc_mask j) i);
      cbn in *; congruence.
  Qed.
  Lemma check_all_ok : forall t w k, Forall (fun j => proper j = true) t -> w < 2 ^ 32 ->
    check_all [] t = true -> first_hit dialect (List.map po_of t) w = Some k ->
    exists e, nth_error t k = Some e /\ good (oc_name e) (dec w) = true.
  Proof.
    intros t w k Ht Hw Hc Hf. apply first_hit_split in Hf as (pre & e & post & -> & <- & Hh & Hn).
    exists e. split; [rewrite nth_error_app2, Nat.sub_diag by lia; reflexivity|].
    apply Forall_app in Ht as [Hpre Ht]. inversion_clear Ht as [|? ? He _].
    apply check_all_split in Hc. rewrite app_nil_r in Hc.
    eapply check_entry_ok; eassumption.
  Qed.
End CHECK.

(** ** The table *)
Definition flat : list opcode := Eval vm_compute in opcodes.
Lemma flat_eq : opcodes = flat. Proof. vm_compute. reflexivity. Qed.
Lemma table_proper : Forall (fun e => proper e = true) opcodes.
Proof. apply Forall_forall. rewrite flat_eq. apply forallb_forall. vm_compute. reflexivity. Qed.
Lemma searched_proper : Forall (fun e => proper e = true) (removelast opcodes).
Proof.
  pose proof table_proper as H. assert (N : opcodes <> []) by (rewrite flat_eq; discriminate).
  rewrite (app_removelast_last (mk_opcode "" 0 0 0 0) N) in H. apply Forall_app in H as [H _]. exact H.
Qed.
Lemma removelast_map : forall A B (f : A -> B) l, removelast (List.map f l) = List.map f (removelast l).
Proof.
  induction l as [|a l IH]; [reflexivity|]. cbn [List.map removelast].
  destruct l as [|b l]; [reflexivity|]. cbn [List.map] in *. rewrite IH. reflexivity.
Qed.
Lemma removelast_nth : forall A (l : list A) k e, nth_error (removelast l) k = Some e -> nth_error l k = Some e.
Proof.
  induction l as [|a l IH]; intros [|k] e; cbn [removelast nth_error]; try discriminate.
  - destruct l; [discriminate|]. intros H. exact H.
  - destruct l as [|b l]; [discriminate|]. cbn [nth_error]. intros H. apply IH. exact H.
Qed.

(** What holds of every word and its name *)
Lemma mnemonic_good : forall A (dec : N -> A) dm good,
  (forall w, w < 2 ^ 32 -> dec w = dec (N.land w (dm (N.shiftr w 26)))) ->
  check_all A dec dm good [] (removelast flat) = true ->
  forall w n, w < 2 ^ 32 -> mnemonic w = Some n -> good n (dec w) = true.
Proof.
  intros A dec dm good Hd Hc w n Hw Hn. unfold mnemonic, ppc_opcodes in Hn. rewrite removelast_map in Hn.
  destruct (first_hit dialect (List.map po_of (removelast opcodes)) w) as [k|] eqn:E; [|discriminate Hn].
  apply (check_all_ok A dec dm Hd good) in E as (e & He & Hg); [|apply searched_proper|assumption|rewrite flat_eq; assumption].
  apply removelast_nth in He. rewrite He in Hn. cbn in Hn. injection Hn as <-. exact Hg.
Qed.
