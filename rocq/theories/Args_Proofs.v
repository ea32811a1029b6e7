(** Command lines: proofs of C71. *)
Require Import Arith ZArith NArith List Bool Lia ZifyBool ZifyN ZifyNat.
Require Import Verif.Args_Model Verif.Args_Spec.
Import ListNotations.
Local Open Scope N_scope.

(** ** getopt *)
Lemma letters_flags o cs rest : Forall (fun c => o c = Some false) cs ->
  letters o (cs ++ rest)
  = (List.map (fun c => Opt c None) cs ++ fst (letters o rest), snd (letters o rest)).
Proof.
  intros F. induction F as [|c cs H _ IH]; cbn [app letters List.map].
  - now destruct (letters o rest).
  - rewrite H, IH. reflexivity.
Qed.

Lemma plain_step stop o w ws : plain w ->
  getopt stop o (w :: ws) = if stop then ([], w :: ws) else let (l, ops) := getopt stop o ws in (l, w :: ops).
Proof.
  intros [->|P]; [reflexivity|]. destruct w as [|c w]; [reflexivity|]. cbn [hd] in P.
  cbn [getopt]. 
  destruct c as [|p]; [reflexivity|].
  do 6 (destruct p as [p|p|]; try reflexivity; try (exfalso; apply P; reflexivity)).
Qed.

Lemma option_step stop o c cs ws : c <> 45 ->
  getopt stop o ((45 :: c :: cs) :: ws)
  = let (l, w) := letters o (c :: cs) in
    match w with
    | None => let (l', ops) := getopt stop o ws in (l ++ l', ops)
    | Some x => match ws with
                | [] => (l ++ [Bad], [])
                | v :: ws' => let (l', ops) := getopt stop o ws' in (l ++ Opt x (Some v) :: l', ops)
                end
    end.
Proof.
  intros C. cbn [getopt]. destruct c as [|p]; [reflexivity|].
  do 6 (destruct p as [p|p|]; try reflexivity; try (exfalso; apply C; reflexivity)).
Qed.

Lemma line_getopt stop o : o 45 = None -> forall l ops ws,
  line stop o l ops ws -> getopt stop o ws = (l, ops) /\ ~ In Bad l.
Proof.
  intros D l ops ws L.
  assert (NF : forall cs (l : list opt), ~ In Bad l -> ~ In Bad (List.map (fun c => Opt c None) cs ++ l)).
  { intros cs l0 N I. apply in_app_or in I. destruct I as [I|I]; [|now apply N].
    apply in_map_iff in I. destruct I as (? & X & _). discriminate X. }
  induction L as [|ops|w ws E P|l w ops ws E P L [IH NB]|cs l ops ws NE F L [IH NB]|cs c v l ops ws F C V L [IH NB]|cs c v l ops ws F C L [IH NB]].
  - split; [reflexivity|exact (fun x => x)].
  - split; [reflexivity|exact (fun x => x)].
  - rewrite (plain_step stop o w ws P), E. split; [reflexivity|exact (fun x => x)].
  - rewrite (plain_step stop o w ws P), E. rewrite E in IH. rewrite IH. now split.
  - split; [|now apply NF]. destruct cs as [|c cs]; [now destruct NE|].
    rewrite option_step by (intros ->; inversion F; congruence).
    rewrite <- (app_nil_r (c :: cs)), (letters_flags o (c :: cs) [] F), app_nil_r.
    cbn [letters fst snd]. now rewrite IH, app_nil_r.
  - split; [|apply NF; intros [X|X]; [discriminate X|now apply NB]].
    assert (Q : exists x r, cs ++ c :: v = x :: r /\ x <> 45).
    { destruct F as [|x cs H _]; cbn; [exists c, v|exists x, (cs ++ c :: v)]; (split; [reflexivity|congruence]). }
    destruct Q as (x & r & Q & X). rewrite Q, option_step, <- Q by exact X.
    rewrite (letters_flags o cs (c :: v) F). cbn [letters]. rewrite C. destruct v as [|y v]; [now destruct V|].
    cbn [fst snd]. rewrite IH, <- app_assoc. reflexivity.
  - split; [|apply NF; intros [X|X]; [discriminate X|now apply NB]].
    assert (Q : exists x r, cs ++ [c] = x :: r /\ x <> 45).
    { destruct F as [|x cs H _]; cbn; [exists c, []|exists x, (cs ++ [c])]; (split; [reflexivity|congruence]). }
    destruct Q as (x & r & Q & X). rewrite Q, option_step, <- Q by exact X.
    rewrite (letters_flags o cs [c] F). cbn [letters]. rewrite C.
    cbn [fst snd]. rewrite IH, app_nil_r. reflexivity.
Qed.

(** What a word of letters can be. *)
Lemma letters_inv o cs l w : letters o cs = (l, w) -> ~ In Bad l ->
  (w = None /\ Forall (fun c => o c = Some false) cs /\ l = List.map (fun c => Opt c None) cs)
  \/ (exists fs c v, cs = fs ++ c :: v /\ v <> [] /\ w = None /\ Forall (fun c => o c = Some false) fs /\ o c = Some true
        /\ l = List.map (fun c => Opt c None) fs ++ [Opt c (Some v)])
  \/ (exists fs c, cs = fs ++ [c] /\ w = Some c /\ Forall (fun c => o c = Some false) fs /\ o c = Some true
        /\ l = List.map (fun c => Opt c None) fs).
Proof.
  revert l w. induction cs as [|c cs IH]; intros l w H B; cbn [letters] in H.
  - injection H as <- <-. left. now repeat split.
  - destruct (o c) as [[|]|] eqn:O.
    + destruct cs as [|c' cs].
      * injection H as <- <-. right; right. exists [], c. repeat split; [constructor|exact O].
      * injection H as <- <-. right; left. exists [], c, (c' :: cs).
        split; [reflexivity|]. split; [discriminate|]. split; [reflexivity|]. split; [constructor|]. now split.
    + destruct (letters o cs) as [l0 w0]. injection H as <- <-.
      destruct (IH l0 w0 eq_refl) as [(-> & F & ->)|[(fs & x & v & -> & V & -> & F & X & ->)|(fs & x & -> & -> & F & X & ->)]].
      * intros I. apply B. now right.
      * left. repeat split. now constructor.
      * right; left. exists (c :: fs), x, v. cbn [app List.map]. repeat split; try assumption. now constructor.
      * right; right. exists (c :: fs), x. cbn [app List.map]. repeat split; try assumption. now constructor.
    + destruct (letters o cs) as [l0 w0]. injection H as <- <-. exfalso. apply B. now left.
Qed.

Lemma word_kind (w : word) : w = [45; 45] \/ plain w \/ (exists c cs, w = 45 :: c :: cs /\ w <> [45; 45]).
Proof.
  destruct w as [|x [|y w]].
  - right; left; right. discriminate.
  - right; left. destruct (N.eqb_spec x 45) as [->|X]; [now left|now right].
  - destruct (N.eqb_spec x 45) as [->|X]; [|right; left; now right].
    destruct (N.eqb_spec y 45) as [->|Y].
    + destruct w as [|z w]; [now left|]. right; right. exists 45, (z :: w). split; [reflexivity|]. intros H. discriminate H.
    + right; right. exists y, w. split; [reflexivity|]. intros H. injection H as H _. now apply Y.
Qed.

Lemma dash_step stop o z cs ws :
  getopt stop o ((45 :: 45 :: z :: cs) :: ws)
  = let (l, w) := letters o (45 :: z :: cs) in
    match w with
    | None => let (l', ops) := getopt stop o ws in (l ++ l', ops)
    | Some x => match ws with
                | [] => (l ++ [Bad], [])
                | v :: ws' => let (l', ops) := getopt stop o ws' in (l ++ Opt x (Some v) :: l', ops)
                end
    end.
Proof. reflexivity. Qed.

Lemma any_step stop o c cs ws : 45 :: c :: cs <> [45; 45] ->
  getopt stop o ((45 :: c :: cs) :: ws)
  = let (l, w) := letters o (c :: cs) in
    match w with
    | None => let (l', ops) := getopt stop o ws in (l ++ l', ops)
    | Some x => match ws with
                | [] => (l ++ [Bad], [])
                | v :: ws' => let (l', ops) := getopt stop o ws' in (l ++ Opt x (Some v) :: l', ops)
                end
    end.
Proof.
  intros D. destruct (N.eqb_spec c 45) as [->|C]; [|now apply option_step].
  destruct cs as [|z cs]; [now destruct D|]. apply dash_step.
Qed.

Lemma getopt_line stop o : forall n ws l ops, (length ws <= n)%nat ->
  getopt stop o ws = (l, ops) -> ~ In Bad l -> line stop o l ops ws.
Proof.
  induction n as [|n IH]; intros ws l ops LN H B.
  - destruct ws; [|cbn in LN; lia]. cbn in H. injection H as <- <-. constructor.
  - destruct ws as [|w ws]; [cbn in H; injection H as <- <-; constructor|]. cbn in LN.
    destruct (word_kind w) as [->|[P|(c & cs & -> & D)]].
    + cbn in H. injection H as <- <-. constructor.
    + rewrite (plain_step stop o w ws P) in H. destruct stop.
      * injection H as <- <-. now constructor.
      * destruct (getopt false o ws) as [l0 ops0] eqn:G. injection H as <- <-.
        apply l_mixed; [reflexivity|exact P|]. apply IH; [lia|exact G|exact B].
    + rewrite any_step in H by exact D.
      destruct (letters o (c :: cs)) as [l0 w0] eqn:L.
      assert (B0 : ~ In Bad l0).
      { destruct w0 as [x|].
        - destruct ws as [|v ws]; [injection H as <- _|destruct (getopt stop o ws); injection H as <- _];
            intros I; apply B; apply in_or_app; now left.
        - destruct (getopt stop o ws). injection H as <- _. intros I; apply B; apply in_or_app; now left. }
      destruct (letters_inv o (c :: cs) l0 w0 L B0) as [(-> & F & ->)|[(fs & x & v & E & V & -> & F & X & ->)|(fs & x & E & -> & F & X & ->)]].
      * destruct (getopt stop o ws) as [l1 o1] eqn:G. injection H as <- <-.
        apply (l_flags stop o (c :: cs)); [discriminate|exact F|]. apply IH; [lia|exact G|].
        intros I; apply B. right. apply in_or_app; now right.
      * destruct (getopt stop o ws) as [l1 o1] eqn:G. injection H as <- <-. rewrite E.
        rewrite <- app_assoc. apply l_joined; [exact F|exact X|exact V|]. apply IH; [lia|exact G|].
        intros I; apply B, in_or_app; now right.
      * rewrite E. destruct ws as [|v ws].
        { injection H as <- <-. exfalso. apply B, in_or_app. right. now left. }
        destruct (getopt stop o ws) as [l1 o1] eqn:G. injection H as <- <-.
        apply l_apart; [exact F|exact X|]. cbn in LN. apply IH; [lia|exact G|].
        intros I; apply B, in_or_app; right; now right.
Qed.

Theorem getopt_is stop o : o 45 = None -> forall l ops ws,
  line stop o l ops ws <-> getopt stop o ws = (l, ops) /\ ~ In Bad l.
Proof.
  intros D l ops ws. split; [now apply line_getopt|].
  intros [H B]. exact (getopt_line stop o (length ws) ws l ops (le_n _) H B).
Qed.

(** Options of a line are among those of the program. *)
Definition fits (o : options) (x : opt) : Prop :=
  match x with Opt c None => o c = Some false | Opt c (Some _) => o c = Some true | Bad => False end.
Lemma line_fits stop o l ops ws : line stop o l ops ws -> Forall (fits o) l.
Proof.
  assert (G : forall cs l, Forall (fun c => o c = Some false) cs -> Forall (fits o) l ->
    Forall (fits o) (List.map (fun c => Opt c None) cs ++ l)).
  { intros cs l0 F L. apply Forall_app. split; [|exact L]. induction F; cbn; constructor; auto. }
  intros L. induction L; auto.
Qed.

(** ** What the options mean *)
Lemma given_cons c x l : given c (x :: l) = is_flag c x || given c l.
Proof. reflexivity. Qed.
Lemma args_cons c x l : args_of c (x :: l)
  = (match x with Opt c' (Some v) => if c =? c' then [v] else [] | _ => [] end) ++ args_of c l.
Proof. reflexivity. Qed.
Lemma times_cons c x l : times c (x :: l) = ((if is_flag c x then 1 else 0) + times c l)%nat.
Proof. unfold times. cbn [filter]. destruct (is_flag c x); reflexivity. Qed.
Lemma last_cons c x l : last_of c (x :: l)
  = match last_of c l with
    | Some v => Some v
    | None => match x with Opt c' (Some v) => if c =? c' then Some v else None | _ => None end
    end.
Proof.
  unfold last_of. rewrite args_cons, rev_app_distr.
  destruct (rev (args_of c l)); cbn [app]; [|reflexivity].
  destruct x as [c' [v|]|]; try reflexivity. destruct (c =? c'); reflexivity.
Qed.
Definition orelse {A} (a : option A) (b : option A) : option A := match a with Some _ => a | None => b end.

Lemma existsb_in c l : existsb (N.eqb c) l = true -> In c l.
Proof. rewrite existsb_exists. intros (x & I & E). apply N.eqb_eq in E. now subst. Qed.
Ltac letter H :=
  apply existsb_in in H; cbn [In] in H;
  repeat match type of H with _ \/ _ => destruct H as [H|H] end; try contradiction; subst.

(** ptracer *)
Lemma ptracer_fold : forall l s, Forall (fits o_ptracer) l ->
  fold_opts p_opt s l
  = if given 102 l || given 104 l then None
    else Some (mk_p (orelse (last_of 97 l) (p_ascii s)) (orelse (last_of 113 l) (p_qtrace s))
                    (number atoi (p_pid s) (last_of 112 l))
                    (number (fun v => ulong_of (strtol v)) (p_left s) (last_of 110 l))
                    (number (fun v => ulong_of (strtol v)) (p_skip s) (last_of 115 l))
                    (given 114 l || p_dump s) (given 120 l || p_xlate s) (orelse (last_of 99 l) (p_chk s))).
Proof.
  induction l as [|x l IH]; intros s F.
  - destruct s; reflexivity.
  - inversion F as [|? ? X FL]; subst. assert (IH' := fun s => IH s FL). clear IH. rename IH' into IH.
    rewrite !given_cons, !last_cons. destruct x as [c [v|]|]; [| |contradiction X]; cbn [fits is_flag] in *;
    unfold o_ptracer in X;
    destruct (existsb (N.eqb c) [97; 113; 112; 110; 115; 99]) eqn:E1; try discriminate X;
    try (match type of X with context [if ?b then _ else _] => destruct b; discriminate X end).
    + clear X. letter E1; destruct s as [a q p n k r x0 ch]; cbn [fold_opts p_opt N.eqb Pos.eqb orb];
      rewrite IH; cbn [p_ascii p_qtrace p_pid p_left p_skip p_dump p_xlate p_chk];
      destruct (given 102 l || given 104 l); try reflexivity;
      destruct (last_of 97 l), (last_of 113 l), (last_of 112 l), (last_of 110 l), (last_of 115 l), (last_of 99 l); reflexivity.
    + destruct (existsb (N.eqb c) [102; 114; 120; 104]) eqn:E2; [|discriminate X]. clear X E1.
      letter E2; destruct s as [a q p n k r x0 ch]; cbn [fold_opts p_opt N.eqb Pos.eqb orb];
      rewrite ?orb_true_r; try reflexivity;
      rewrite IH; cbn [p_ascii p_qtrace p_pid p_left p_skip p_dump p_xlate p_chk];
      destruct (given 102 l || given 104 l); try reflexivity;
      rewrite ?orb_true_r;
      destruct (last_of 97 l), (last_of 113 l), (last_of 112 l), (last_of 110 l), (last_of 115 l), (last_of 99 l); reflexivity.
Qed.

Theorem ptracer_is l ops ws : line true o_ptracer l ops ws -> ptracer ws = ptracer_means l ops.
Proof.
  intros L. destruct (line_getopt true o_ptracer eq_refl l ops ws L) as [G _].
  unfold ptracer, ptracer_means. rewrite G, (ptracer_fold l p_init (line_fits _ _ _ _ _ L)).
  destruct (given 102 l || given 104 l); [reflexivity|].
  cbn [p_pid p_ascii p_qtrace p_left p_skip p_dump p_xlate p_chk p_init]. rewrite !orb_false_r.
  destruct (Z.eqb _ 0), ops; cbn [negb andb]; try reflexivity;
  destruct (last_of 97 l), (last_of 113 l), (last_of 99 l); reflexivity.
Qed.

Lemma fold_bad {A} (f : A -> opt -> option A) (N : forall s, f s Bad = None) l :
  In Bad l -> forall s, fold_opts f s l = None.
Proof.
  induction l as [|x l IH]; intros I s; [contradiction|]. cbn [fold_opts].
  destruct I as [->|I]; [now rewrite N|]. destruct (f s x); [now apply IH|reflexivity].
Qed.
Lemma bad_dec (l : list opt) : {In Bad l} + {~ In Bad l}.
Proof. apply in_dec. intros [c [v|]|] [c' [v'|]|]; try (right; discriminate); try (now left).
  - destruct (N.eq_dec c c') as [->|X]; [|right; congruence].
    destruct (list_eq_dec N.eq_dec v v') as [->|Y]; [now left|right; congruence].
  - destruct (N.eq_dec c c') as [->|X]; [now left|right; congruence].
Qed.
Lemma no_line stop o ws : o 45 = None -> (forall l ops, ~ line stop o l ops ws) -> In Bad (fst (getopt stop o ws)).
Proof.
  intros D H. destruct (bad_dec (fst (getopt stop o ws))) as [I|I]; [exact I|].
  destruct (getopt stop o ws) as [l ops] eqn:G. cbn [fst] in *.
  exfalso. apply (H l ops). apply getopt_is; auto.
Qed.

Theorem ptracer_bad ws : (forall l ops, ~ line true o_ptracer l ops ws) -> ptracer ws = Usage 1.
Proof.
  intros H. apply no_line in H; [|reflexivity]. unfold ptracer. destruct (getopt true o_ptracer ws) as [l ops].
  cbn [fst] in H. rewrite fold_bad; [reflexivity|intros []; reflexivity|exact H].
Qed.

(** qtdis *)
Lemma qtdis_fold bfd : forall l s, Forall (fits o_qtdis) l ->
  fold_opts (d_opt bfd) s l
  = if negb bfd && (given 98 l || nonempty (args_of 101 l)) then None
    else Some (mk_d (d_exe s ++ args_of 101 l) (given 98 l || d_build s) (number atoi (d_dump s) (last_of 100 l))
                    (given 114 l || d_raw s) (given 115 l || d_stats s) (given 105 l || d_imix s)
                    (given 99 l || d_bb s) (times 118 l + d_verbose s)).
Proof.
  induction l as [|x l IH]; intros s F.
  - destruct s, bfd; cbn; rewrite app_nil_r; reflexivity.
  - inversion F as [|? ? X FL]; subst. assert (IH' := fun s => IH s FL). clear IH.
    rewrite !given_cons, !last_cons, !args_cons, !times_cons. destruct x as [c [v|]|]; [| |contradiction X]; cbn [fits is_flag] in *;
    unfold o_qtdis in X;
    destruct (existsb (N.eqb c) [101; 100]) eqn:E1; try discriminate X;
    try (match type of X with context [if ?b then _ else _] => destruct b; discriminate X end).
    + clear X. letter E1; destruct s as [e b d r st i cc ve]; cbn [fold_opts d_opt N.eqb Pos.eqb orb app Nat.add].
      * destruct bfd; [|cbn [negb andb nonempty]; rewrite orb_true_r; reflexivity].
        rewrite IH'. cbn [negb andb d_exe d_build d_dump d_raw d_stats d_imix d_bb d_verbose].
        rewrite <- app_assoc. destruct (last_of 100 l); reflexivity.
      * rewrite IH'. cbn [d_exe d_build d_dump d_raw d_stats d_imix d_bb d_verbose].
        destruct (last_of 100 l); reflexivity.
    + destruct (existsb (N.eqb c) [114; 118; 98; 115; 99; 105]) eqn:E2; [|discriminate X]. clear X E1.
      letter E2; destruct s as [e b d r st i cc ve]; cbn [fold_opts d_opt N.eqb Pos.eqb orb app Nat.add];
      try (destruct bfd; [|reflexivity]);
      rewrite IH'; cbn [negb andb d_exe d_build d_dump d_raw d_stats d_imix d_bb d_verbose];
      rewrite ?orb_true_r, ?Nat.add_succ_r; destruct (last_of 100 l); reflexivity.
Qed.

Lemma times_given c l : Nat.eqb (times c l) 0 = negb (given c l).
Proof.
  induction l as [|x l IH]; [reflexivity|]. rewrite times_cons, given_cons. destruct (is_flag c x); [reflexivity|exact IH].
Qed.

Theorem qtdis_is bfd l ops ws : line false o_qtdis l ops ws -> qtdis bfd ws = qtdis_means bfd l ops.
Proof.
  intros L. destruct (line_getopt false o_qtdis eq_refl l ops ws L) as [G _].
  unfold qtdis, qtdis_means. rewrite G, (qtdis_fold bfd l d_init (line_fits _ _ _ _ _ L)).
  destruct (negb bfd && _); [reflexivity|].
  cbn [d_init d_exe d_build d_dump d_raw d_stats d_imix d_bb d_verbose]. rewrite !orb_false_r, Nat.add_0_r.
  destruct ops as [|f [|? ?]]; try reflexivity. rewrite times_given, negb_involutive. reflexivity.
Qed.
Theorem qtdis_bad bfd ws : (forall l ops, ~ line false o_qtdis l ops ws) -> qtdis bfd ws = Usage 1.
Proof.
  intros H. apply no_line in H; [|reflexivity]. unfold qtdis. destruct (getopt false o_qtdis ws) as [l ops].
  cbn [fst] in H. rewrite fold_bad; [reflexivity|intros []; reflexivity|exact H].
Qed.

(** htmdecoder *)
Lemma htm_fold : forall l s, Forall (fits o_htm) l ->
  fold_opts h_opt s l
  = Some (mk_h (given 68 l || h_debug s) (given 68 l || given 100 l || h_detail s) (orelse (last_of 111 l) (h_out s))
               (given 115 l || h_stats s) (given 105 l || h_imix s) (given 98 l || h_bb s)).
Proof.
  induction l as [|x l IH]; intros s F.
  - destruct s; reflexivity.
  - inversion F as [|? ? X FL]; subst. assert (IH' := fun s => IH s FL). clear IH.
    rewrite !given_cons, !last_cons. destruct x as [c [v|]|]; [| |contradiction X]; cbn [fits is_flag] in *;
    unfold o_htm in X; destruct (c =? 111) eqn:E1; try discriminate X;
    try (match type of X with context [if ?b then _ else _] => destruct b; discriminate X end).
    + apply N.eqb_eq in E1. subst c. destruct s as [D d o st i b]; cbn [fold_opts h_opt N.eqb Pos.eqb orb].
      rewrite IH'. cbn [h_debug h_detail h_out h_stats h_imix h_bb]. destruct (last_of 111 l); reflexivity.
    + destruct (existsb (N.eqb c) _) eqn:E2 in X; [|discriminate X]. clear X E1.
      letter E2; destruct s as [D d o st i b]; cbn [fold_opts h_opt N.eqb Pos.eqb orb];
      rewrite IH'; cbn [h_debug h_detail h_out h_stats h_imix h_bb]; rewrite ?orb_true_r; cbn [orb]; destruct (last_of 111 l); reflexivity.
Qed.
Lemma last_nonempty c l : nonempty (args_of c l) = match last_of c l with Some _ => true | None => false end.
Proof.
  unfold last_of. destruct (args_of c l) as [|v vs]; [reflexivity|]. cbn [nonempty rev].
  destruct (rev vs); reflexivity.
Qed.
Theorem htm_is l ops ws : line false o_htm l ops ws -> htmdecoder ws = htm_means l ops.
Proof.
  intros L. destruct (line_getopt false o_htm eq_refl l ops ws L) as [G _].
  unfold htmdecoder, htm_means. rewrite G, (htm_fold l h_init (line_fits _ _ _ _ _ L)).
  cbn [h_init h_debug h_detail h_out h_stats h_imix h_bb]. rewrite !orb_false_r, last_nonempty.
  destruct ops as [|f ?]; [reflexivity|]. destruct (last_of 111 l); reflexivity.
Qed.
Theorem htm_bad ws : (forall l ops, ~ line false o_htm l ops ws) -> htmdecoder ws = Usage 0.
Proof.
  intros H. apply no_line in H; [|reflexivity]. unfold htmdecoder. destruct (getopt false o_htm ws) as [l ops].
  cbn [fst] in H. rewrite fold_bad; [reflexivity|intros []; reflexivity|exact H].
Qed.

(** qtrace-bbv *)
Lemma bbv_fold : forall l s, Forall (fits o_bbv) l ->
  fold_opts b_opt s l
  = Some (mk_b (number (fun v => strtoul v mod 2 ^ 32) (b_dim s) (last_of 100 l))
               (number (fun v => strtoul v mod 2 ^ 32) (b_k s) (last_of 107 l))
               (number strtoul (b_period s) (last_of 112 l)) (times 118 l + b_verbose s)).
Proof.
  induction l as [|x l IH]; intros s F.
  - destruct s; reflexivity.
  - inversion F as [|? ? X FL]; subst. assert (IH' := fun s => IH s FL). clear IH.
    rewrite !last_cons, !times_cons. destruct x as [c [v|]|]; [| |contradiction X]; cbn [fits is_flag] in *;
    unfold o_bbv in X; destruct (existsb (N.eqb c) _) eqn:E1 in X; try discriminate X;
    try (match type of X with context [if ?b then _ else _] => destruct b; discriminate X end).
    + clear X. letter E1; destruct s as [d k p ve]; cbn [fold_opts b_opt N.eqb Pos.eqb orb Nat.add];
      rewrite IH'; cbn [b_dim b_k b_period b_verbose];
      destruct (last_of 100 l), (last_of 107 l), (last_of 112 l); reflexivity.
    + clear E1. destruct (c =? 118) eqn:E2; [|discriminate X]. apply N.eqb_eq in E2. subst c.
      destruct s as [d k p ve]; cbn [fold_opts b_opt N.eqb Pos.eqb orb Nat.add].
      rewrite IH'. cbn [b_dim b_k b_period b_verbose]. rewrite Nat.add_succ_r.
      destruct (last_of 100 l), (last_of 107 l), (last_of 112 l); reflexivity.
Qed.
Theorem bbv_is dim per l ops ws : line false o_bbv l ops ws -> bbv dim per ws = bbv_means dim per l ops.
Proof.
  intros L. destruct (line_getopt false o_bbv eq_refl l ops ws L) as [G _].
  unfold bbv, bbv_means. rewrite G, (bbv_fold l (mk_b dim 0 per 0) (line_fits _ _ _ _ _ L)).
  cbn [b_dim b_k b_period b_verbose]. rewrite Nat.add_0_r. reflexivity.
Qed.
Theorem bbv_bad dim per ws : (forall l ops, ~ line false o_bbv l ops ws) -> bbv dim per ws = Usage 1.
Proof.
  intros H. apply no_line in H; [|reflexivity]. unfold bbv. destruct (getopt false o_bbv ws) as [l ops].
  cbn [fst] in H. rewrite fold_bad; [reflexivity|intros []; reflexivity|exact H].
Qed.
