(** The statistics script reads the lines of qtdis (C73). *)
Require Import Arith NArith List Bool Lia ZifyBool ZifyN ZifyNat.
Require Import Verif.Args_Model Verif.Regs_Model Verif.Script_Model Verif.Script_Spec Verif.Script_Proofs.
Import ListNotations.
Local Open Scope N_scope.

Lemma span_stop f a c b : Forall (fun x => f x = true) a -> f c = false -> span f (a ++ c :: b) = (a, c :: b).
Proof. intros F C. induction F as [|x a X _ IH]; cbn [app span]; [now rewrite C|]. now rewrite X, IH. Qed.
Lemma span_all f a : Forall (fun x => f x = true) a -> span f a = (a, []).
Proof. intros F. induction F as [|x a X _ IH]; cbn [span]; [reflexivity|]. now rewrite X, IH. Qed.

Lemma digit_hex n : n < 16 -> py_hex (digit n) = true /\ hex_digit (digit n) = n /\ py_space (digit n) = false.
Proof.
  intros H. assert (C : forallb (fun n => py_hex (digit n) && (hex_digit (digit n) =? n) && negb (py_space (digit n)))
    [0; 1; 2; 3; 4; 5; 6; 7; 8; 9; 10; 11; 12; 13; 14; 15] = true) by reflexivity.
  rewrite forallb_forall in C. specialize (C n).
  assert (I : In n [0; 1; 2; 3; 4; 5; 6; 7; 8; 9; 10; 11; 12; 13; 14; 15]) by (cbn; lia).
  specialize (C I). lia.
Qed.
Lemma hex_hex n : forall v, Forall (fun c => py_hex c = true) (hex n v).
Proof. induction n as [|n IH]; intros v; cbn [hex]; constructor; [|apply IH]. apply digit_hex, N.mod_lt. discriminate. Qed.
Lemma int16_hex n : forall v acc,
  fold_left (fun a c => 16 * a + hex_digit c) (hex n v) acc = acc * 16 ^ N.of_nat n + v mod 16 ^ N.of_nat n.
Proof.
  induction n as [|n IH]; intros v acc.
  - cbn [hex fold_left]. change (N.of_nat 0) with 0. rewrite N.pow_0_r, N.mod_1_r. lia.
  - cbn [hex fold_left]. destruct (digit_hex ((v / 16 ^ N.of_nat n) mod 16)) as (_ & -> & _); [now apply N.mod_lt|].
    rewrite IH, Nat2N.inj_succ, N.pow_succ_r'.
    assert (P : 16 ^ N.of_nat n <> 0) by (apply N.pow_nonzero; discriminate).
    rewrite (N.mul_comm 16 (16 ^ N.of_nat n)), (N.mod_mul_r v (16 ^ N.of_nat n) 16) by (exact P || discriminate).
    lia.
Qed.
Lemma int16_ea v : v < 2 ^ 64 -> int16 (hex 16 v) = v.
Proof.
  intros H. unfold int16. rewrite int16_hex. rewrite N.mul_0_l, N.add_0_l. apply N.mod_small.
  change (16 ^ N.of_nat 16) with (2 ^ 64). exact H.
Qed.
Lemma hexs_printable f : forall n, Forall printable (hexs f n).
Proof.
  induction f as [|f IH]; intros n; cbn [hexs]; [constructor|]. apply Forall_app. split.
  - destruct (n <? 16); [constructor|apply IH].
  - constructor; [|constructor]. apply digit_hex, N.mod_lt. discriminate.
Qed.

Lemma hex_cons v : exists c r, hex 16 v = c :: r.
Proof. cbn [hex]. eauto. Qed.

(** Behind the white space the text, up to the end of the line *)
Lemma text_part t : Forall (fun c => c <> 10) t -> printable (hd 0 t) ->
  exists s rest, span py_space (32 :: 9 :: t ++ [10]) = (s, rest) /\ s <> []
    /\ fst (span (fun c => negb (c =? 10)) rest) = t /\ (t = [] -> rest = []) /\ (t <> [] -> rest = t ++ [10])
    /\ span py_space (9 :: t ++ [10]) = (tl s, rest).
Proof.
  intros NL P. destruct t as [|c t].
  - exists [32; 9; 10], []. repeat split; try reflexivity; try discriminate. intros H. now destruct H.
  - cbn [hd] in P. exists [32; 9], ((c :: t) ++ [10]).
    cbn [app span]. change (py_space 32) with true. change (py_space 9) with true. unfold printable in P. rewrite P.
    split; [reflexivity|]. split; [discriminate|]. split; [|repeat split; intros; discriminate].
    change (if negb (c =? 10) then _ else _) with (span (fun c => negb (c =? 10)) ((c :: t) ++ [10])).
    rewrite (span_stop (fun c => negb (c =? 10)) (c :: t) 10 []); [reflexivity| |reflexivity].
    eapply Forall_impl; [|exact NL]. cbn. intros; lia.
Qed.

Lemma until_span n rest : fst (span (fun c => negb (c =? 43)) (n ++ 43 :: rest)) = until_plus n.
Proof.
  induction n as [|c n IH]; [reflexivity|]. cbn [app span until_plus].
  destruct (c =? 43); cbn [negb]; [reflexivity|]. rewrite <- IH.
  destruct (span (fun c0 => negb (c0 =? 43)) (n ++ 43 :: rest)). reflexivity.
Qed.

Theorem parses x : proper x ->
  parse_line (listing x) = Some (mk_pline (q_ea x) (q_text x) (drop_all SyS_ 0 (drop_all sys_ 0 (name_of x)))).
Proof.
  intros (H & S & NL & P & LT). destruct (text_part (q_text x) NL P) as (s & rest & TS & SN & TT & T0 & T1 & T9).
  unfold parse_line, listing, name_of. destruct (q_sym x) as [[n off]|].
  - destruct S as [PN _].
    unfold r_sym. cbn [app].
    repeat (rewrite <- app_assoc; cbn [app]).
    rewrite (span_stop py_hex (hex 16 (q_ea x)) 32) by (apply hex_hex || reflexivity).
    destruct (hex_cons (q_ea x)) as (c & r & E). rewrite E. rewrite <- E.
    cbn [span]. change (py_space 32) with true. change (py_space 60) with false. cbn [span].
    set (run := n ++ 43 :: 48 :: 120 :: hexs 16 off ++ [62]).
    replace (n ++ 43 :: 48 :: 120 :: hexs 16 off ++ 62 :: 32 :: 9 :: q_text x ++ [10])
      with (run ++ 32 :: 9 :: q_text x ++ [10]) by (unfold run; rewrite <- app_assoc; cbn [app]; rewrite <- app_assoc; reflexivity).
    rewrite (span_stop (fun c => negb (py_space c)) run 32); [|unfold run|reflexivity].
    + rewrite TS. destruct s as [|s0 s]; [now destruct SN|].
      assert (LR : run = (n ++ 43 :: 48 :: 120 :: hexs 16 off) ++ [62]) by (unfold run; rewrite <- app_assoc; reflexivity).
      rewrite LR, last_last, removelast_last, app_length. change (62 =? 62) with true.
      replace (Nat.ltb 1 _) with true by (symmetry; apply Nat.ltb_lt; rewrite app_length; cbn [length]; lia).
      cbn [andb]. rewrite TT, (int16_ea _ H), until_span. reflexivity.
    + apply Forall_app. split; [eapply Forall_impl; [|exact PN]; intros c0 X; unfold printable in X; now rewrite X|].
      constructor; [reflexivity|]. constructor; [reflexivity|]. constructor; [reflexivity|].
      apply Forall_app. split; [|now repeat constructor].
      eapply Forall_impl; [|apply (hexs_printable 16 off)]. intros c0 X; unfold printable in X; now rewrite X.
  - cbn [app].
    assert (RS : r_sym (hex 16 (q_ea x) ++ 32 :: 9 :: q_text x ++ [10]) = None).
    { unfold r_sym. rewrite (span_stop py_hex (hex 16 (q_ea x)) 32) by (apply hex_hex || reflexivity). rewrite TS.
      destruct (hex_cons (q_ea x)) as (c & r & E). rewrite E. destruct s as [|s0 s]; [now destruct SN|].
      destruct (q_text x) as [|c0 t] eqn:Q; [now rewrite (T0 eq_refl)|].
      rewrite T1 by discriminate. cbn [app]. cbn [hd] in LT.
      destruct c0 as [|p]; [reflexivity|]. do 6 (destruct p as [p|p|]; try reflexivity; try (now destruct LT)). }
    rewrite RS. unfold r_no_sym. rewrite (span_stop py_hex (hex 16 (q_ea x)) 32) by (apply hex_hex || reflexivity). rewrite TS.
    destruct (hex_cons (q_ea x)) as (c & r & E). rewrite E. rewrite <- E. destruct s as [|s0 s]; [now destruct SN|].
    rewrite TT, (int16_ea _ H). reflexivity.
Qed.

(** Names *)
Lemma drop_none p l : contains p l = false -> drop_all p 0 l = l.
Proof.
  induction l as [|c l IH]; intros C; [reflexivity|]. cbn [contains] in C. apply orb_false_iff in C. destruct C as [C1 C2].
  cbn [drop_all]. rewrite C1, (IH C2). reflexivity.
Qed.
Lemma prefix_app p l : is_prefix p (p ++ l) = true.
Proof. induction p as [|x p IH]; [destruct l; reflexivity|]. cbn. now rewrite N.eqb_refl. Qed.
Lemma drop_skip p : forall a l, drop_all p (length a) (a ++ l) = drop_all p 0 l.
Proof. induction a as [|c a IH]; intros l; [reflexivity|]. cbn [length app drop_all]. apply IH. Qed.
Lemma drop_front p l : p <> [] -> contains p l = false -> drop_all p 0 (p ++ l) = l.
Proof.
  intros NE C. destruct p as [|x p]; [now destruct NE|].
  assert (H : is_prefix (x :: p) ((x :: p) ++ l) = true) by apply prefix_app.
  cbn [app drop_all] in *. rewrite H. cbn [length]. rewrite Nat.sub_succ, Nat.sub_0_r.
  rewrite drop_skip. now apply drop_none.
Qed.

Theorem script_reads lines : Forall proper lines -> forall s,
  script s (List.map listing lines) = Some (fold_left parse_one
    (List.map (fun x => mk_pline (q_ea x) (q_text x) (drop_all SyS_ 0 (drop_all sys_ 0 (name_of x)))) lines) s).
Proof.
  intros F. induction F as [|x lines X _ IH]; intros s; [reflexivity|]. cbn [List.map script fold_left].
  rewrite (parses x X). apply IH.
Qed.
