(** Symbols and instructions in the listing. *)
Require Import NArith List Bool String Lia ZifyBool ZifyN ZifyNat.
Require Import Verif.Codec_Types Verif.Verbose_Model Verif.Verbose_Spec Verif.Vtext_Model Verif.Vtext_Spec Verif.Vtext_Proofs.
Require Verif.Verbose_Props Verif.Regs_Model Verif.Regs_Proofs2 Verif.Script_Model.
Import ListNotations.
Local Open Scope N_scope.
Local Open Scope list_scope.

Local Notation hexs := Script_Model.hexs.
Lemma hexs_step n v : hexs (S n) v = (if v <? 16 then [] else hexs n (v / 16)) ++ [Regs_Model.digit (v mod 16)].
Proof. reflexivity. Qed.
Lemma digit_back d : d < 16 -> digit (Regs_Model.digit d) = d.
Proof. intros H. unfold digit, Regs_Model.digit. destruct (d <? 10) eqn:E; [destruct (48 + d <? 58) eqn:F|destruct (87 + d <? 58) eqn:F]; lia. Qed.
Lemma hexadecimal_hexs n : forall v, hexadecimal (hexs n v) = v mod 16 ^ N.of_nat n.
Proof.
  induction n as [|n IH]; intros v; [symmetry; apply N.mod_1_r|]. rewrite hexs_step. unfold hexadecimal. rewrite fold_left_app.
  cbn [fold_left]. rewrite digit_back by (apply N.mod_lt; discriminate). fold (hexadecimal (if v <? 16 then [] else hexs n (v / 16))).
  replace (16 ^ N.of_nat (S n)) with (16 * 16 ^ N.of_nat n) by (rewrite <- N.pow_succ_r'; f_equal; lia).
  assert (Z : 16 ^ N.of_nat n <> 0) by (apply N.pow_nonzero; discriminate).
  rewrite N.mod_mul_r by (exact Z || discriminate). destruct (v <? 16) eqn:E.
  - apply N.ltb_lt in E. rewrite (N.div_small v 16) by exact E. rewrite N.mod_0_l by exact Z. unfold hexadecimal. cbn [fold_left]. lia.
  - rewrite IH. lia.
Qed.
Lemma hexs_no120 n : forall v, ~ In 120 (hexs n v).
Proof.
  induction n as [|n IH]; intros v I; [exact I|]. rewrite hexs_step in I. apply in_app_iff in I as [I|[I|[]]].
  - destruct (v <? 16); [exact I|exact (IH _ I)].
  - assert (v mod 16 < 16) by (apply N.mod_lt; discriminate). unfold Regs_Model.digit in I. destruct (v mod 16 <? 10) eqn:E; lia.
Qed.
Lemma skipn_front {A} (a b : list A) n : List.length a = n -> skipn n (a ++ b) = b.
Proof. intros <-. rewrite skipn_app, skipn_all, PeanoNat.Nat.sub_diag. reflexivity. Qed.
Lemma firstn_front {A} (a b : list A) n : List.length a = n -> firstn n (a ++ b) = a.
Proof. intros <-. now rewrite firstn_app, firstn_all, PeanoNat.Nat.sub_diag, firstn_O, app_nil_r. Qed.

Local Notation hex := Regs_Model.hex.
Section lines.
Variables (sym : N -> option (list N * N)) (dis : N -> list N -> list N) (le raw : bool).
Hypothesis P : plain sym dis.
Hypothesis T : forall a ws, ~ In 9 (dis a ws).

Lemma fields v : (v_mark v = true <-> v_notes v <> []) -> exists r, split 9 (body sym dis le raw v) =
  print_address sym (v_ea v) :: (if raw then [bytes_text le (v_words v)] else []) ++ dis (v_ea v) (v_words v) :: r.
Proof.
  intros M. destruct (address_cut sym dis P (v_ea v)) as (r & _ & A9 & _ & _).
  pose proof (still_no _ (bytes_still le (v_words v))) as (B9 & _ & _).
  pose proof (still_no _ (notes_still (v_notes v))) as (N9 & _ & _). specialize (T (v_ea v) (v_words v)).
  unfold body. rewrite raw_text.
  assert (E : exists r, split 9 (dis (v_ea v) (v_words v) ++ (if v_mark v then [9] ++ chars " #" else []) ++ flat_map print_note (v_notes v))
    = (if v_mark v then dis (v_ea v) (v_words v) else dis (v_ea v) (v_words v) ++ flat_map print_note (v_notes v)) :: r).
  { destruct (v_mark v).
    - cbn [app]. rewrite split_app, (split_none 9 (dis _ _)) by exact T. eexists. reflexivity.
    - cbn [app]. rewrite split_none by (rewrite in_app_iff; tauto). eexists. reflexivity. }
  destruct E as (r' & E). destruct M as [M1 M2].
  assert (E2 : (if v_mark v then dis (v_ea v) (v_words v) else dis (v_ea v) (v_words v) ++ flat_map print_note (v_notes v)) = dis (v_ea v) (v_words v)).
  { destruct (v_mark v); [reflexivity|]. destruct (v_notes v); [apply app_nil_r|]. discriminate (M2 ltac:(discriminate)). }
  rewrite E2 in E. exists r'.
  set (q := dis (v_ea v) (v_words v) ++ (if v_mark v then [9] ++ chars " #" else []) ++ flat_map print_note (v_notes v)) in *. clearbody q.
  destruct raw; cbn [app].
  - rewrite split_app, (split_none 9 (print_address _ _)) by exact A9. rewrite split_app, (split_none 9 (bytes_text _ _)) by exact B9.
    rewrite E. reflexivity.
  - rewrite split_app, (split_none 9 (print_address _ _)) by exact A9. rewrite E. reflexivity.
Qed.
Lemma symbol_read v : (v_mark v = true <-> v_notes v <> []) ->
  (symbol (body sym dis le raw v), instruction raw (body sym dis le raw v)) =
  (option_map (fun x => (fst x, snd x mod 2 ^ 64)) (sym (v_ea v)), dis (v_ea v) (v_words v)).
Proof.
  intros M. destruct (fields v M) as (r & E). unfold symbol, instruction. rewrite E. f_equal; [|destruct raw; reflexivity].
  cbn [nth]. unfold print_address. destruct (sym (v_ea v)) as [[name off]|]; cbn [option_map fst snd].
  - change (chars " <") with [32; 60]. change (chars "+0x") with ([43; 48] ++ [120]). change (chars "> ") with [62; 32].
    match goal with |- context [skipn 17 ?t] => replace t with ((hex 16 (v_ea v) ++ [32]) ++ 60 :: (name ++ [43; 48; 120] ++ hexs 16 off) ++ [62; 32])
      by (rewrite <- !app_assoc; reflexivity) end.
    rewrite skipn_front by (rewrite app_length, Regs_Proofs2.hex_length; reflexivity).
    set (b := name ++ [43; 48; 120] ++ hexs 16 off).
    rewrite (firstn_front b) by (rewrite app_length; cbn [List.length]; lia).
    assert (S1 : last (split 120 b) [] = hexs 16 off).
    { unfold b. replace (name ++ [43; 48; 120] ++ hexs 16 off) with ((name ++ [43; 48]) ++ 120 :: hexs 16 off) by (rewrite <- !app_assoc; reflexivity).
      rewrite split_app, (split_none 120 (hexs 16 off)) by apply hexs_no120. apply last_last. }
    rewrite S1. do 2 f_equal.
    + unfold b. apply firstn_front. rewrite !app_length. cbn [List.length]. lia.
    + exact (hexadecimal_hexs 16 off).
  - rewrite skipn_all2; [reflexivity|]. rewrite app_length, Regs_Proofs2.hex_length. cbn. lia.
Qed.
Lemma texts_read vs : Forall (fun v => v_mark v = true <-> v_notes v <> []) vs ->
  List.map (fun t => (symbol t, instruction raw t)) (removelast (split 10 (flat_map (print_line sym dis le raw) vs))) =
  List.map (fun v => (option_map (fun x => (fst x, snd x mod 2 ^ 64)) (sym (v_ea v)), dis (v_ea v) (v_words v))) vs.
Proof.
  intros M. replace (split 10 (flat_map (print_line sym dis le raw) vs)) with (List.map (body sym dis le raw) vs ++ [[]]).
  - rewrite removelast_last, map_map. apply map_ext_in. intros v I. apply symbol_read. rewrite Forall_forall in M. now apply M.
  - clear M. induction vs as [|v vs IH]; [reflexivity|]. cbn [List.map flat_map]. rewrite line_body, <- app_assoc. cbn [app].
    rewrite split_app, (split_none 10 (body _ _ _ _ v)) by (apply body_line; exact P). cbn [app]. now rewrite <- IH.
Qed.
End lines.

Lemma names_read sym dis (le raw : bool) slack file : plain sym dis -> (forall a ws, ~ In 9 (dis a ws)) ->
  List.map (fun t => (symbol t, instruction raw t)) (removelast (split 10 (qtdis_verbose sym dis le raw slack file))) =
  List.map (fun v => (option_map (fun x => (fst x, snd x mod 2 ^ 64)) (sym (v_ea v)), dis (v_ea v) (v_words v))) (fst (read_verbose slack file)).
Proof. intros P T. apply texts_read; [exact P|exact T|apply Verbose_Props.C63_mark]. Qed.
