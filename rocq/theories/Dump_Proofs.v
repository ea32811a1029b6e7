(** The output of qtdis -d 1 against that of -v. *)
Require Import NArith List Bool String Lia ZifyBool ZifyN ZifyNat.
Require Import Verif.Word Verif.Codec_Types Verif.Codec_Spec Verif.Reader_Model Verif.Qtdis_Model Verif.Verbose_Model Verif.Verbose_Spec.
Require Import Verif.Vtext_Model Verif.Vtext_Spec Verif.Vtext_Proofs Verif.Vtext_Proofs3 Verif.Dump_Model Verif.Dump_Spec.
Require Verif.Regs_Model Verif.Regs_Proofs2 Verif.Script_Model Verif.Tlbdump_Spec.
Import ListNotations.
Local Open Scope N_scope.
Local Open Scope list_scope.
Local Notation hex := Regs_Model.hex.
Local Notation hexs := Script_Model.hexs.
Local Notation codes := Tlbdump_Spec.codes.

(** ** Text of a line *)
Definition opt_tok (name : string) (o : option (list N)) : list (list N) :=
  match o with Some t => [codes name ++ codes ":0x" ++ t] | None => [] end.
Definition line_toks (k : string) (ea : list N) (ra sz : option (list N)) : list (list N) :=
  codes k :: (codes "EA:0x" ++ ea) :: opt_tok "RA" ra ++ opt_tok "PAGE_SIZE" sz.
Definition line_text (k : string) (ea : list N) (ra sz : option (list N)) : list N :=
  codes k ++ lead (tl (line_toks k ea ra sz)).

Lemma fine_no58 n v : ~ In 58 (hex n v).
Proof.
  induction n as [|n IH]; [easy|]. cbn. intros [E|E]; [|exact (IH E)].
  unfold Regs_Model.digit in E. pose proof (N.mod_lt (v / 16 ^ N.of_nat n) 16 ltac:(discriminate)). 
  destruct ((v / 16 ^ N.of_nat n) mod 16 <? 10) eqn:F; lia.
Qed.
Lemma hexs_no58 n : forall v, ~ In 58 (hexs n v).
Proof.
  induction n as [|n IH]; intros v I; [exact I|]. rewrite hexs_step in I. apply in_app_iff in I as [I|[I|[]]].
  - destruct (v <? 16); [exact I|exact (IH _ I)].
  - assert (v mod 16 < 16) by (apply N.mod_lt; discriminate). unfold Regs_Model.digit in I. destruct (v mod 16 <? 10) eqn:E; lia.
Qed.
Definition plain_num (t : list N) : Prop := Forall fine t /\ ~ In 58 t.
Definition plain_opt (o : option (list N)) : Prop := match o with Some t => plain_num t | None => True end.
Lemma hex_plain n v : plain_num (hex n v). Proof. split; [apply hex_fine|apply fine_no58]. Qed.
Lemma hexs_plain n v : plain_num (hexs n v). Proof. split; [apply hexs_fine|apply hexs_no58]. Qed.

Lemma named_tok name k t : ~ In 58 (codes k) -> ~ In 58 t ->
  named name (codes k ++ 58 :: 48 :: 120 :: t) = if is name (codes k) then [hexadecimal t] else [].
Proof.
  intros A B. unfold named. rewrite split_app, (split_none 58 (codes k)) by exact A.
  rewrite (split_none 58 (48 :: 120 :: t)) by (cbn [In]; intros [E|[E|E]]; [discriminate E|discriminate E|exact (B E)]).
  reflexivity.
Qed.

Lemma toks_line k ea ra sz : (k = "IFTCH" \/ k = "LDST")%string -> plain_num ea -> plain_opt ra -> plain_opt sz ->
  Forall good (line_toks k ea ra sz).
Proof.
  intros K [E _] R Z. unfold line_toks. apply Forall_cons; [|apply Forall_cons; [|apply Forall_app; split]].
  - destruct K as [-> | ->]; (split; [apply fine_codes; reflexivity|discriminate]).
  - apply good_pre; [apply fine_codes; reflexivity|discriminate|exact E].
  - destruct ra as [t|]; [|constructor]. destruct R as [R _]. apply Forall_cons; [|constructor].
    apply good_pre; [apply fine_codes; reflexivity|discriminate|]. apply Forall_app. split; [apply fine_codes; reflexivity|exact R].
  - destruct sz as [t|]; [|constructor]. destruct Z as [Z _]. apply Forall_cons; [|constructor].
    apply good_pre; [apply fine_codes; reflexivity|discriminate|]. apply Forall_app. split; [apply fine_codes; reflexivity|exact Z].
Qed.
Lemma line_dread k ea ra sz : (k = "IFTCH" \/ k = "LDST")%string -> plain_num ea -> plain_opt ra -> plain_opt sz ->
  dread (line_text k ea ra sz) = (is "LDST" (codes k), Some (hexadecimal ea), option_map hexadecimal ra, option_map hexadecimal sz).
Proof.
  intros K E R Z. pose proof (good_solid _ (toks_line k ea ra sz K E R Z)) as G.
  assert (T : tokens (line_text k ea ra sz) = line_toks k ea ra sz).
  { unfold line_text. unfold line_toks in *. cbn [tl] in *. inversion_clear G as [|? ? G1 G2].
    set (l := (codes "EA:0x" ++ ea) :: opt_tok "RA" ra ++ opt_tok "PAGE_SIZE" sz) in *.
    assert (TL : tokens (lead l) = l).
    { rewrite <- (app_nil_r (lead l)), (tokens_lead [] (or_introl eq_refl) l G2). apply app_nil_r. }
    unfold lead in *. unfold l in *. cbn [flat_map app] in *. rewrite tokens_app, tokens_one by exact G1.
    rewrite tokens_space in TL. rewrite TL. reflexivity. }
  unfold dread. rewrite T. unfold line_toks. cbn [hd]. destruct E as [_ E].
  assert (N0 : forall n, named n (codes k) = []) by (intros n; destruct K as [-> | ->]; reflexivity).
  assert (NE : forall n, named n (codes "EA:0x" ++ ea) = if is n (codes "EA") then [hexadecimal ea] else [])
    by (intros n; apply (named_tok n "EA"); [cbn; intuition discriminate|exact E]).
  assert (NR : forall n, flat_map (named n) (opt_tok "RA" ra) = if is n (codes "RA") then match ra with Some t => [hexadecimal t] | None => [] end else []).
  { intros n. destruct ra as [t|]; [|now destruct (is n _)]. destruct R as [_ R]. unfold opt_tok. cbn [flat_map].
    rewrite app_nil_r. apply (named_tok n "RA"); [cbn; intuition discriminate|exact R]. }
  assert (NZ : forall n, flat_map (named n) (opt_tok "PAGE_SIZE" sz) = if is n (codes "PAGE_SIZE") then match sz with Some t => [hexadecimal t] | None => [] end else []).
  { intros n. destruct sz as [t|]; [|now destruct (is n _)]. destruct Z as [_ Z]. unfold opt_tok. cbn [flat_map].
    rewrite app_nil_r. apply (named_tok n "PAGE_SIZE"); [cbn; intuition discriminate|exact Z]. }
  unfold field. cbn [flat_map]. rewrite !flat_map_app, !N0, !NE, !NR, !NZ.
  destruct ra, sz; reflexivity.
Qed.
Lemma line_still k ea ra sz : (k = "IFTCH" \/ k = "LDST")%string -> plain_num ea -> plain_opt ra -> plain_opt sz -> ~ In 10 (line_text k ea ra sz).
Proof.
  intros K E R Z I. pose proof (toks_line k ea ra sz K E R Z) as G. unfold line_text in I. apply in_app_iff in I as [I|I].
  - destruct K as [-> | ->]; cbn in I; intuition discriminate.
  - assert (L : forall l, Forall good l -> ~ In 10 (lead l)).
    { induction 1 as [|t l [H _] F IH]; [easy|]. cbn [lead flat_map]. fold (lead l). rewrite <- app_comm_cons. intros [X|X]; [discriminate X|].
      apply in_app_iff in X as [X|X]; [|exact (IH X)]. rewrite Forall_forall in H. specialize (H _ X). unfold fine in H. lia. }
    apply (L (tl (line_toks k ea ra sz))); [|exact I]. inversion_clear G. assumption.
Qed.

(** ** A record *)
Definition d_ra (v : bool) (n : N) : option (list N) := if v then Some (hex 16 (shifted n)) else None.
Definition d_sz (v : bool) (s : N) : option (list N) := if v then Some (hexs 16 (N.shiftl 1 s)) else None.
Lemma ra_plain v n : plain_opt (d_ra v n). Proof. destruct v; [apply hex_plain|exact I]. Qed.
Lemma sz_plain v n : plain_opt (d_sz v n). Proof. destruct v; [apply hexs_plain|exact I]. Qed.
Lemma size_text (w : bool) (s : N) (isize : list N) : print_size w s = Some isize -> isize = if w then chars " PAGE_SIZE:0x" ++ hexs 16 (N.shiftl 1 s) else [].
Proof.
  unfold print_size. generalize (hexs 16 (N.shiftl 1 s)) (chars " PAGE_SIZE:0x"). intros c d H.
  destruct w; [destruct (s <? 64); [|discriminate H]|]; congruence.
Qed.
Lemma line_form (k : string) (v : bool) (a : list N) (w : bool) (b c : list N) : (chars k ++ chars " EA:0x" ++ a ++ (if v then chars " RA:0x" ++ b else []) ++ (if w then chars " PAGE_SIZE:0x" ++ c else []) ++ [10]) =
  line_text k a (if v then Some b else None) (if w then Some c else None) ++ [10].
Proof.
  assert (E : chars k = codes k) by (induction k as [|x k IH]; [reflexivity|cbn [chars]; rewrite IH; reflexivity]).
  unfold line_text, line_toks. rewrite E. cbn [tl]. rewrite <- app_assoc. f_equal.
  destruct v, w; unfold lead; cbn; rewrite ?app_nil_r; repeat (rewrite <- app_assoc; cbn); rewrite ?app_nil_r; reflexivity.
Qed.
Lemma fetch_text ea v n w s isize : print_size w s = Some isize ->
  chars "IFTCH EA:0x" ++ hex 16 ea ++ print_ra v n ++ isize ++ [10] = line_text "IFTCH" (hex 16 ea) (d_ra v n) (d_sz w s) ++ [10].
Proof. intros H. rewrite (size_text _ _ _ H). exact (line_form "IFTCH" v (hex 16 ea) w (hex 16 (shifted n)) (hexs 16 (N.shiftl 1 s))). Qed.
Lemma data_text ea v n w s isize : print_size w s = Some isize ->
  chars "LDST EA:0x" ++ hex 16 ea ++ print_ra v n ++ isize ++ [10] = line_text "LDST" (hex 16 ea) (d_ra v n) (d_sz w s) ++ [10].
Proof. intros H. rewrite (size_text _ _ _ H). exact (line_form "LDST" v (hex 16 ea) w (hex 16 (shifted n)) (hexs 16 (N.shiftl 1 s))). Qed.

(** ** Annotations *)
Lemma picked (p : shown -> list N) (c : bool) n : flat_map p (flat_map seen (note_if c n)) = if c then flat_map p (seen n) else [].
Proof. destruct c; [|reflexivity]. unfold note_if. cbn [flat_map]. now rewrite app_nil_r. Qed.
Lemma no_walk (p : shown -> list N) f o : (forall w : wk, p (f w) = []) -> flat_map p (list_of f o) = [].
Proof. intros H. destruct o as [w|]; [|reflexivity]. cbn [list_of flat_map]. now rewrite H. Qed.
Ltac picks := unfold pick, noted, print_verbose, v_notes, notes; cbn [snd]; rewrite !flat_map_app, !picked; cbn [seen];
  rewrite !no_walk by reflexivity; cbn [flat_map p_data p_drpn p_dsize p_irpn p_isize app];
  repeat match goal with |- context [if ?c then [] else []] => replace (if c then @nil N else []) with (@nil N) by (destruct c; reflexivity) end;
  rewrite ?app_nil_r; cbn [app]; unfold optb; match goal with |- hd_error (if ?c then _ else _) = _ => destruct c; reflexivity end.
Section rec.
Variables (s : rstate) (r : rrec) (ea : N).
Local Notation q := (o_q r).
Local Notation n := (r_nxt s).
Local Notation V := (noted (print_verbose s r ea)).
Lemma pick_data : pick p_data V = optb (q_data_addr_valid q) (q_data_addr q). Proof. picks. Qed.
Lemma pick_drpn : pick p_drpn V = optb (q_data_ra_valid q) (data_rpn q). Proof. picks. Qed.
Lemma pick_dsize : pick p_dsize V = optb (q_data_ps_valid q) (q_data_ps q). Proof. picks. Qed.
Lemma pick_irpn : pick p_irpn V = optb (x_rpn_v n) (x_rpn n). Proof. picks. Qed.
Lemma pick_isize : pick p_isize V = optb (x_ps_v n) (x_ps n). Proof. picks. Qed.

Lemma ra_value v m : option_map hexadecimal (d_ra v m) = page (optb v m).
Proof.
  destruct v; [|reflexivity]. cbn [d_ra option_map page optb]. f_equal. rewrite hexadecimal_hex. unfold shifted, u64.
  rewrite N.shiftl_mul_pow2. change (2 ^ 12) with 4096. change (16 ^ N.of_nat 16) with (2 ^ 64). now rewrite N.mod_mod by discriminate.
Qed.
Lemma sz_value v m t : print_size v m = Some t -> option_map hexadecimal (d_sz v m) = size (optb v m) /\ below (optb v m) = true.
Proof.
  destruct v; [|split; reflexivity]. unfold print_size. destruct (m <? 64) eqn:E; [|discriminate]. intros _.
  cbn [d_sz option_map size optb below]. split; [|exact E]. f_equal. rewrite hexadecimal_hexs, N.shiftl_1_l.
  change (16 ^ N.of_nat 16) with (2 ^ 64). apply N.mod_small. apply N.ltb_lt in E. apply N.pow_lt_mono_r; [reflexivity|exact E].
Qed.
Lemma sz_none v m : print_size v m = None -> below (optb v m) = false.
Proof. destruct v; [|discriminate]. unfold print_size. cbn [optb below]. destruct (m <? 64); [discriminate|reflexivity]. Qed.

Definition textual (ls : list (list N)) : list N := flat_map (fun l => l ++ [10]) ls.
Lemma record_read : match dump_record s r ea with
  | Some t => sized V = true /\ exists ls, t = textual ls /\ Forall (fun l => ~ In 10 l) ls /\ List.map dread ls = dlines ea V
  | None => sized V = false
  end.
Proof.
  unfold dump_record, sized, dlines, fetch_line, data_lines. rewrite pick_data, pick_drpn, pick_dsize, pick_irpn, pick_isize.
  destruct (print_size (x_ps_v n) (x_ps n)) as [isize|] eqn:EI; [|now rewrite (sz_none _ _ EI)].
  rewrite (fetch_text ea _ _ _ _ _ EI). destruct (sz_value _ _ _ EI) as (VI & BI). rewrite BI.
  assert (F : dread (line_text "IFTCH" (hex 16 ea) (d_ra (x_rpn_v n) (x_rpn n)) (d_sz (x_ps_v n) (x_ps n))) =
    (false, Some (ea mod 2 ^ 64), page (optb (x_rpn_v n) (x_rpn n)), size (optb (x_ps_v n) (x_ps n)))).
  { rewrite line_dread by (auto using hex_plain, ra_plain, sz_plain). rewrite ra_value, VI, hexadecimal_hex. reflexivity. }
  assert (FN := line_still "IFTCH" (hex 16 ea) (d_ra (x_rpn_v n) (x_rpn n)) (d_sz (x_ps_v n) (x_ps n)) (or_introl eq_refl)
    (hex_plain _ _) (ra_plain _ _) (sz_plain _ _)).
  destruct (q_data_addr_valid q); cbn [optb andb].
  - destruct (print_size (q_data_ps_valid q) (q_data_ps q)) as [dsize|] eqn:ED; [|now rewrite (sz_none _ _ ED)].
    rewrite (data_text (q_data_addr q) _ _ _ _ _ ED). destruct (sz_value _ _ _ ED) as (VD & BD). rewrite BD. split; [reflexivity|].
    eexists [_; _]. split; [unfold textual; cbn [flat_map]; rewrite app_nil_r; reflexivity|]. split.
    + constructor; [exact FN|]. constructor; [|constructor]. apply line_still; auto using hex_plain, ra_plain, sz_plain.
    + cbn [List.map]. rewrite F, line_dread by (auto using hex_plain, ra_plain, sz_plain). rewrite ra_value, VD, hexadecimal_hex. reflexivity.
  - split; [reflexivity|]. eexists [_]. split; [unfold textual; cbn [flat_map]; rewrite app_nil_r; reflexivity|]. split.
    + constructor; [exact FN|constructor].
    + cbn [List.map]. now rewrite F.
Qed.
End rec.

(** ** The loop *)
Definition agrees (t : list N * qend) (x : list vline * qend) : Prop :=
  exists ls, fst t = textual ls /\ Forall (fun l => ~ In 10 l) ls /\
    List.map dread ls = flat_map (fun v => dlines (v_ea v) (noted v)) (until (fun v => sized (noted v)) (fst x)) /\
    snd t = if forallb (fun v => sized (noted v)) (fst x) then snd x else QShift.
Lemma agrees_nil e : agrees ([], e) ([], e).
Proof. exists []. repeat split; constructor. Qed.
Lemma agrees_cons s r ea t x : agrees t x ->
  agrees (match dump_record s r ea with None => ([], QShift) | Some a => (a ++ fst t, snd t) end) (print_verbose s r ea :: fst x, snd x).
Proof.
  intros (ls & A & B & C & D). pose proof (record_read s r ea) as H. unfold agrees. cbn [fst snd until forallb].
  destruct (dump_record s r ea) as [a|].
  - destruct H as (-> & l0 & -> & N0 & R0). exists (l0 ++ ls). cbn [fst snd andb flat_map].
    split; [unfold textual; rewrite flat_map_app, A; reflexivity|]. split; [apply Forall_app; now split|].
    split; [rewrite map_app, R0, C; reflexivity|exact D].
  - rewrite H. cbn [andb]. exists []. repeat split; constructor.
Qed.
Lemma loop_agrees slack : forall fuel s b ea, agrees (dump_loop fuel slack s b ea) (verbose_loop fuel slack s b ea).
Proof.
  induction fuel as [|fuel IH]; intros s b ea; [apply agrees_nil|]. cbn [dump_loop verbose_loop].
  destruct (qtreader_next_record slack s b) as [[[r s1] b1]| |f]; try apply agrees_nil.
  destruct (r_prefixed s1); cbn [negb].
  - destruct (qtreader_next_record slack s1 b1) as [[[r2 s2] b2]| |f]; try apply agrees_nil.
    + pose proof (agrees_cons s1 r ea _ _ (IH s2 b2 (r_next_addr s2))) as G.
      destruct (dump_loop fuel slack s2 b2 (r_next_addr s2)), (verbose_loop fuel slack s2 b2 (r_next_addr s2)). exact G.
    + pose proof (agrees_cons s1 r ea _ _ (agrees_nil QLost)) as G. cbn [fst snd] in G.
      destruct (dump_record s1 r ea) as [t|]; [rewrite app_nil_r in G|]; exact G.
  - pose proof (agrees_cons s1 r ea _ _ (IH s1 b1 (r_next_addr s1))) as G.
    destruct (dump_loop fuel slack s1 b1 (r_next_addr s1)), (verbose_loop fuel slack s1 b1 (r_next_addr s1)). exact G.
Qed.
Lemma dreads_text ls : Forall (fun l => ~ In 10 l) ls -> dreads (textual ls) = List.map dread ls.
Proof.
  intros F. unfold dreads. replace (split 10 (textual ls)) with (ls ++ [[]]); [now rewrite removelast_last|].
  induction F as [|l ls H F IH]; [reflexivity|]. unfold textual. cbn [flat_map]. rewrite <- app_assoc. cbn [app].
  rewrite split_app, (split_none 10 l) by exact H. cbn [app]. now rewrite IH.
Qed.
Lemma dump_read slack file : let x := read_verbose slack file in let t := qtdis_dump slack file in
  dreads (fst t) = flat_map (fun v => dlines (v_ea v) (noted v)) (until (fun v => sized (noted v)) (fst x)) /\
  snd t = if forallb (fun v => sized (noted v)) (fst x) then snd x else QShift.
Proof.
  cbv zeta. assert (G : agrees (qtdis_dump slack file) (read_verbose slack file)).
  { unfold qtdis_dump, read_verbose. destruct (qtreader_initialize file) as [[s b]| |f]; try apply agrees_nil. apply loop_agrees. }
  destruct G as (ls & A & B & C & D). rewrite A, dreads_text by exact B. split; [exact C|exact D].
Qed.
