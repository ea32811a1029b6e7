(** Reading the listing of qtdis -v. *)
Require Import NArith PeanoNat List Bool String Ascii Lia ZifyBool ZifyN ZifyNat.
Require Import Verif.Codec_Types Verif.Verbose_Model Verif.Verbose_Spec Verif.Vtext_Model Verif.Vtext_Spec.
Require Verif.Tlbdump_Model Verif.Tlbdump_Spec Verif.Regs_Model Verif.Regs_Proofs2 Verif.Script_Model Verif.Start_Model
  Verif.Start_Proofs Verif.Args_Spec Verif.Args_Model.
Import ListNotations.
Local Open Scope N_scope.
Local Open Scope list_scope.
Local Notation codes := Tlbdump_Spec.codes.
Local Notation dec := Tlbdump_Model.dec.
Local Notation hex := Regs_Model.hex.

(** ** Fields and words *)
Lemma split_app sep b : forall a, split sep (a ++ sep :: b) = split sep a ++ split sep b.
Proof.
  induction a as [|c a IH]; cbn [app split]; [now rewrite N.eqb_refl|].
  rewrite IH. destruct (c =? sep); [reflexivity|]. destruct (split sep a) eqn:E; [|reflexivity].
  destruct a as [|d a]; [discriminate E|]. cbn [split] in E. destruct (d =? sep); [discriminate E|].
  destruct (split sep a); discriminate E.
Qed.
Lemma split_none sep : forall a, ~ In sep a -> split sep a = [a].
Proof.
  induction a as [|c a IH]; intros H; [reflexivity|]. cbn [split]. cbn [In] in H.
  destruct (N.eqb_spec c sep) as [E|E]; [tauto|]. rewrite IH by tauto. reflexivity.
Qed.
Lemma tokens_app a b : tokens (a ++ 32 :: b) = tokens a ++ tokens b.
Proof. unfold tokens. now rewrite split_app, filter_app. Qed.
Definition solid (t : list N) : Prop := t <> [] /\ ~ In 32 t.
Lemma tokens_one t : solid t -> tokens t = [t].
Proof. intros [A B]. unfold tokens. rewrite split_none by exact B. destruct t; [congruence|reflexivity]. Qed.
Lemma tokens_space b : tokens (32 :: b) = tokens b.
Proof. exact (tokens_app [] b). Qed.

Definition lead (l : list (list N)) : list N := flat_map (fun t => 32 :: t) l.
Definition trail (l : list (list N)) : list N := flat_map (fun t => t ++ [32]) l.
Definition ends (r : list N) : Prop := r = [] \/ exists r', r = 32 :: r'.
Lemma tokens_lead r : ends r -> forall l, Forall solid l -> tokens (lead l ++ r) = l ++ tokens r.
Proof.
  intros E. induction 1 as [|t l S F IH]; [reflexivity|]. cbn [lead flat_map]. fold (lead l).
  rewrite <- app_assoc. cbn [app]. rewrite tokens_space.
  assert (E' : ends (lead l ++ r)) by (destruct l; [exact E|right; eexists; reflexivity]).
  destruct E' as [E'|(r' & E')]; rewrite E' in *.
  - rewrite app_nil_r, tokens_one by exact S. cbn [tokens split filter] in IH. now rewrite <- IH.
  - rewrite tokens_app, tokens_one by exact S. rewrite tokens_space in IH. now rewrite IH.
Qed.
Lemma tokens_trail r : forall l, Forall solid l -> tokens (trail l ++ r) = l ++ tokens r.
Proof.
  induction 1 as [|t l S F IH]; [reflexivity|]. cbn [trail flat_map]. fold (trail l).
  rewrite <- !app_assoc. cbn [app]. now rewrite tokens_app, tokens_one, IH.
Qed.

(** ** Numbers *)
Definition fine (c : N) : Prop := 43 <= c.
Lemma digit_fine n : fine (Regs_Model.digit n).
Proof. unfold fine, Regs_Model.digit. destruct (n <? 10); lia. Qed.
Lemma hex_fine n v : Forall fine (hex n v).
Proof. induction n; cbn; constructor; [apply digit_fine|exact IHn]. Qed.
Lemma hexs_fine n : forall v, Forall fine (Script_Model.hexs n v).
Proof.
  induction n as [|n IH]; intros v; [constructor|]. cbn [Script_Model.hexs]. apply Forall_app. split.
  - destruct (v <? 16); [constructor|apply IH].
  - constructor; [apply digit_fine|constructor].
Qed.
Lemma dec_fine n : Forall fine (dec n).
Proof.
  unfold dec. rewrite Start_Proofs.decimal_text. unfold Args_Spec.text_of. apply Forall_forall. intros c I.
  apply in_map_iff in I as (d & <- & _). unfold fine. lia.
Qed.
Lemma dec_nonempty n : dec n <> [].
Proof.
  unfold dec. rewrite Start_Proofs.decimal_text. unfold Args_Spec.text_of. pose proof (Start_Proofs.dec_nonempty 19 n) as H.
  destruct (Start_Proofs.dec 20 n); [congruence|discriminate].
Qed.
Lemma fine_solid t : Forall fine t -> t <> [] -> solid t.
Proof. intros F N. split; [exact N|]. intros I. rewrite Forall_forall in F. specialize (F _ I). unfold fine in F. lia. Qed.
Lemma hexadecimal_hex n v : hexadecimal (hex n v) = v mod 16 ^ N.of_nat n.
Proof.
  assert (G : forall l acc, fold_left (fun a c => 16 * a + digit c) l acc = Regs_Proofs2.unhex acc l)
    by (induction l as [|c l IH]; intros acc; [reflexivity|cbn [fold_left Regs_Proofs2.unhex]; apply IH]).
  unfold hexadecimal. rewrite G, Regs_Proofs2.unhex_hex. lia.
Qed.
Lemma decimal_dec n : n < 10 ^ 20 -> decimal (dec n) = n.
Proof.
  intros B. unfold dec. rewrite Start_Proofs.decimal_text. unfold decimal, Args_Spec.text_of.
  assert (G : forall ds acc, fold_left (fun a c => 10 * a + (c - 48)) (List.map (fun d => 48 + d) ds) acc
              = fold_left (fun a d => 10 * a + d) ds acc).
  { induction ds as [|d ds IH]; intros acc; [reflexivity|]. cbn [List.map fold_left]. rewrite IH. f_equal. lia. }
  rewrite G. exact (Start_Proofs.dec_value 20 n B).
Qed.
Lemma prefixed_hex n v : prefixed (codes "0x" ++ hex n v) = v mod 16 ^ N.of_nat n.
Proof. exact (hexadecimal_hex n v). Qed.
Lemma level_dec n : level (codes "L" ++ dec (n mod 2 ^ 64)) = n mod 2 ^ 64.
Proof.
  apply decimal_dec. assert (n mod 2 ^ 64 < 2 ^ 64) by (apply N.mod_lt; discriminate).
  change (2 ^ 64) with 18446744073709551616 in *. change (10 ^ 20) with 100000000000000000000. lia.
Qed.
Lemma decimal_dec32 n : decimal (dec (n mod 2 ^ 32)) = n mod 2 ^ 32.
Proof.
  apply decimal_dec. assert (n mod 2 ^ 32 < 2 ^ 32) by (apply N.mod_lt; discriminate).
  change (2 ^ 32) with 4294967296 in *. change (10 ^ 20) with 100000000000000000000. lia.
Qed.

(** ** Annotations *)
Definition level_toks (w : radix) (j i : nat) : list (list N) :=
  [codes "HOST"; codes "L" ++ dec (N.of_nat (S i) mod 2 ^ 64); codes "0x" ++ hex 16 (nth i (nth j (rx_host_ptes w) []) 0)].
Definition row_toks (w : radix) (j : nat) : list (list N) :=
  [codes "GUEST"; codes "L" ++ dec (N.of_nat (S j) mod 2 ^ 64); hex 16 (nth j (rx_guest_real w) 0)]
  ++ flat_map (level_toks w j) (seq 0 (N.to_nat (rx_nr_ptes w)))
  ++ (if N.of_nat (S j) <? rx_walks w then [codes "GUEST"; codes "HOST"; codes "REAL"; codes "0x" ++ hex 16 (nth j (rx_host_real w) 0)] else []).
Definition walk_toks (w : radix) : list (list N) := flat_map (row_toks w) (seq 0 (N.to_nat (rx_walks w))).
Definition toks (n : note) : list (list N) :=
  match n with
  | NData a => [codes "0x" ++ hex 16 a]
  | NDataRpn n => [codes "DATA"; codes "RPN"; codes "0x" ++ hex 8 n]
  | NDataRadix w => codes "DATA" :: codes "RADIX" :: walk_toks w
  | NDataSize s => [codes "DATA"; codes "PAGE"; codes "SIZE"; dec (s mod 2 ^ 32)]
  | NInsnRpn n => [codes "INSN"; codes "RPN"; codes "0x" ++ hex 8 n]
  | NInsnRadix w => codes "INSN" :: codes "RADIX" :: walk_toks w
  | NInsnSize s => [codes "INSN"; codes "PAGE"; codes "SIZE"; dec (s mod 2 ^ 32)]
  | NNode n => [codes "NODE"; codes "0x" ++ hex 2 n]
  | NTerm n c => [codes "TERM"; codes "NODE"; codes "0x" ++ hex 2 n; codes "TERM"; codes "CODE"; codes "0x" ++ hex 2 c]
  end.

Lemma flat_flat {A B C} (f : A -> list B) (g : B -> list C) l : flat_map g (flat_map f l) = flat_map (fun x => flat_map g (f x)) l.
Proof. induction l as [|x l IH]; [reflexivity|]. cbn [flat_map]. now rewrite flat_map_app, IH. Qed.
Lemma level_text w j i : print_level w j i = trail (level_toks w j i).
Proof.
  unfold print_level, level_toks, trail. cbn [flat_map]. generalize (dec (N.of_nat (S i) mod 2 ^ 64)) (hex 16 (nth i (nth j (rx_host_ptes w) []) 0)).
  intros a b. rewrite app_nil_r, <- !app_assoc. reflexivity.
Qed.
Lemma row_text w j : print_walk w j = trail (row_toks w j).
Proof.
  unfold print_walk, row_toks, trail. rewrite !flat_map_app, flat_flat.
  rewrite (flat_map_ext _ _ (fun i => level_text w j i)). unfold trail.
  replace (N.of_nat j <? rx_walks w - 1) with (N.of_nat (S j) <? rx_walks w) by lia.
  generalize (dec (N.of_nat (S j) mod 2 ^ 64)) (hex 16 (nth j (rx_guest_real w) 0))
    (flat_map (fun x => flat_map (fun t => t ++ [32]) (level_toks w j x)) (seq 0 (N.to_nat (rx_nr_ptes w)))).
  intros a b c. cbn [flat_map]. rewrite !app_nil_r, <- !app_assoc. destruct (N.of_nat (S j) <? rx_walks w).
  - cbn [flat_map]. generalize (hex 16 (nth j (rx_host_real w) 0)). intros d. rewrite <- !app_assoc. reflexivity.
  - rewrite <- ?app_assoc. reflexivity.
Qed.
Lemma walk_text w : print_radix_on_radix w = trail (walk_toks w).
Proof. unfold print_radix_on_radix, walk_toks, trail. rewrite flat_flat. apply flat_map_ext. intros j. apply row_text. Qed.

Lemma fine_codes s : forallb (fun c => 43 <=? c) (codes s) = true -> Forall fine (codes s).
Proof. intros H. rewrite forallb_forall in H. apply Forall_forall. intros c I. specialize (H c I). unfold fine. lia. Qed.
Ltac fines := repeat match goal with
  | |- Forall _ (_ ++ _) => apply Forall_app; split
  | |- Forall fine (codes _) => apply fine_codes; reflexivity
  | |- Forall fine (hex _ _) => apply hex_fine
  | |- Forall fine (dec _) => apply dec_fine
  | |- Forall fine [] => constructor
  end.
Definition good (t : list N) : Prop := Forall fine t /\ t <> [].
Lemma good_code s : Forall fine (codes s) -> codes s <> [] -> good (codes s). Proof. split; assumption. Qed.
Lemma good_pre s t : Forall fine (codes s) -> codes s <> [] -> Forall fine t -> good (codes s ++ t).
Proof. intros A B C. split; [now apply Forall_app|]. destruct (codes s); [congruence|discriminate]. Qed.
Ltac goods := repeat match goal with
  | |- Forall good (_ :: _) => apply Forall_cons
  | |- Forall good [] => apply Forall_nil
  | |- good (codes _ ++ _) => apply good_pre; [fines|discriminate|fines]
  | |- good (codes _) => apply good_code; [fines|discriminate]
  | |- good (hex (S ?n) ?v) => split; [apply hex_fine|discriminate]
  | |- good (dec _) => split; [apply dec_fine|apply dec_nonempty]
  end.
Lemma walk_good w : Forall good (walk_toks w).
Proof.
  apply Forall_flat_map, Forall_forall. intros j _. unfold row_toks. apply Forall_app. split; [goods|].
  apply Forall_app. split; [|destruct (N.of_nat (S j) <? rx_walks w); goods].
  apply Forall_flat_map, Forall_forall. intros i _. unfold level_toks. goods.
Qed.
Lemma toks_good n : Forall good (toks n).
Proof. destruct n; cbn [toks]; goods; apply walk_good. Qed.
Lemma good_solid l : Forall good l -> Forall solid l.
Proof. apply Forall_impl. intros t [A B]. now apply fine_solid. Qed.

Lemma note_text n : print_note n = lead (toks n) \/ exists a b w, toks n = a :: b :: walk_toks w /\ print_note n = lead [a; b] ++ 32 :: trail (walk_toks w).
Proof.
  destruct n; cbn [print_note toks]; unfold lead; cbn [flat_map]; rewrite ?walk_text;
    try (left; rewrite ?app_nil_r, <- ?app_assoc; reflexivity);
    right; do 3 eexists; (split; [reflexivity|]); rewrite <- ?app_assoc; reflexivity.
Qed.
Lemma note_ends n : exists r, print_note n = 32 :: r.
Proof. destruct n; eexists; reflexivity. Qed.
Lemma notes_ends ns : ends (flat_map print_note ns).
Proof. destruct ns as [|n ns]; [now left|]. right. destruct (note_ends n) as (r & E). cbn [flat_map]. rewrite E. eexists. reflexivity. Qed.
Lemma note_tokens n r : ends r -> tokens (print_note n ++ r) = toks n ++ tokens r.
Proof.
  intros E. pose proof (good_solid _ (toks_good n)) as G. destruct (note_text n) as [T|(a & b & w & K & T)]; rewrite T.
  - now apply tokens_lead.
  - rewrite K in *. rewrite <- app_assoc. cbn [app]. inversion_clear G as [|? ? G1 G']. inversion_clear G' as [|? ? G2 G3].
    rewrite tokens_lead; [|right; eexists; reflexivity|apply Forall_cons; [exact G1|apply Forall_cons; [exact G2|apply Forall_nil]]].
    rewrite tokens_space, tokens_trail by exact G3. reflexivity.
Qed.
Lemma notes_tokens ns : tokens (flat_map print_note ns) = flat_map toks ns.
Proof.
  induction ns as [|n ns IH]; [reflexivity|]. cbn [flat_map]. rewrite note_tokens by apply notes_ends. now rewrite IH.
Qed.

(** ** Pieces *)
Lemma pieces_guest l a r : pieces (codes "GUEST" :: (codes "L" ++ l) :: a :: r) = PGuest (level (codes "L" ++ l)) (hexadecimal a) :: pieces r.
Proof. reflexivity. Qed.
Lemma pieces_host l a r : pieces (codes "HOST" :: (codes "L" ++ l) :: a :: r) = PHost (level (codes "L" ++ l)) (prefixed a) :: pieces r.
Proof. reflexivity. Qed.
Lemma pieces_real a r : pieces (codes "GUEST" :: codes "HOST" :: codes "REAL" :: a :: r) = PReal (prefixed a) :: pieces r.
Proof. reflexivity. Qed.
Lemma pieces_dwalk r : pieces (codes "DATA" :: codes "RADIX" :: r) = PDataWalk :: pieces r.
Proof. destruct r; reflexivity. Qed.
Lemma pieces_iwalk r : pieces (codes "INSN" :: codes "RADIX" :: r) = PInsnWalk :: pieces r.
Proof. destruct r; reflexivity. Qed.
Lemma levels_pieces w j r is : pieces (flat_map (level_toks w j) is ++ r)
  = List.map (fun i => PHost (N.of_nat (S i) mod 2 ^ 64) (nth i (nth j (rx_host_ptes w) []) 0 mod 2 ^ 64)) is ++ pieces r.
Proof.
  induction is as [|i is IH]; [reflexivity|]. cbn [flat_map List.map]. rewrite <- app_assoc. unfold level_toks at 1. cbn [app].
  rewrite pieces_host, level_dec, prefixed_hex, IH. reflexivity.
Qed.
Lemma row_pieces w j r : pieces (row_toks w j ++ r)
  = (PGuest (N.of_nat (S j) mod 2 ^ 64) (nth j (rx_guest_real w) 0 mod 2 ^ 64)
    :: List.map (fun i => PHost (N.of_nat (S i) mod 2 ^ 64) (nth i (nth j (rx_host_ptes w) []) 0 mod 2 ^ 64)) (seq 0 (N.to_nat (rx_nr_ptes w)))
    ++ (if N.of_nat (S j) <? rx_walks w then [PReal (nth j (rx_host_real w) 0 mod 2 ^ 64)] else [])) ++ pieces r.
Proof.
  unfold row_toks. rewrite <- !app_assoc. transitivity (pieces (codes "GUEST" :: (codes "L" ++ dec (N.of_nat (S j) mod 2 ^ 64)) :: hex 16 (nth j (rx_guest_real w) 0) ::
    (flat_map (level_toks w j) (seq 0 (N.to_nat (rx_nr_ptes w))) ++ (if N.of_nat (S j) <? rx_walks w
      then [codes "GUEST"; codes "HOST"; codes "REAL"; codes "0x" ++ hex 16 (nth j (rx_host_real w) 0)] else []) ++ r))); [reflexivity|].
  rewrite pieces_guest, level_dec, hexadecimal_hex, levels_pieces.
  rewrite <- app_comm_cons, <- app_assoc. f_equal. f_equal. destruct (N.of_nat (S j) <? rx_walks w); [|reflexivity].
  cbn [app]. rewrite pieces_real, prefixed_hex. reflexivity.
Qed.
Lemma walk_read w r : pieces (walk_toks w ++ r) = walk_pieces w ++ pieces r.
Proof.
  unfold walk_toks, walk_pieces. induction (seq 0 (N.to_nat (rx_walks w))) as [|j js IH]; [reflexivity|].
  cbn [flat_map]. rewrite <- app_assoc, row_pieces, IH, <- app_assoc. reflexivity.
Qed.
Lemma note_read n r : pieces (toks n ++ r) = note_pieces n ++ pieces r.
Proof.
  destruct n as [a|n|w|s|n|w|s|n|n c]; cbn [toks note_pieces app].
  - change (PData (prefixed (codes "0x" ++ hex 16 a)) :: pieces r = PData (a mod 2 ^ 64) :: pieces r). now rewrite prefixed_hex.
  - change (PDataRpn (prefixed (codes "0x" ++ hex 8 n)) :: pieces r = PDataRpn (n mod 2 ^ 32) :: pieces r). now rewrite prefixed_hex.
  - rewrite pieces_dwalk, walk_read. reflexivity.
  - change (PDataSize (decimal (dec (s mod 2 ^ 32))) :: pieces r = PDataSize (s mod 2 ^ 32) :: pieces r). now rewrite decimal_dec32.
  - change (PInsnRpn (prefixed (codes "0x" ++ hex 8 n)) :: pieces r = PInsnRpn (n mod 2 ^ 32) :: pieces r). now rewrite prefixed_hex.
  - rewrite pieces_iwalk, walk_read. reflexivity.
  - change (PInsnSize (decimal (dec (s mod 2 ^ 32))) :: pieces r = PInsnSize (s mod 2 ^ 32) :: pieces r). now rewrite decimal_dec32.
  - change (PNode (prefixed (codes "0x" ++ hex 2 n)) :: pieces r = PNode (n mod 2 ^ 8) :: pieces r). now rewrite prefixed_hex.
  - change (PTerm (prefixed (codes "0x" ++ hex 2 n)) (prefixed (codes "0x" ++ hex 2 c)) :: pieces r = PTerm (n mod 2 ^ 8) (c mod 2 ^ 8) :: pieces r).
    now rewrite !prefixed_hex.
Qed.
Lemma notes_read ns : pieces (flat_map toks ns) = flat_map note_pieces ns.
Proof. induction ns as [|n ns IH]; [reflexivity|]. cbn [flat_map]. now rewrite note_read, IH. Qed.

(** ** Lines *)
Definition still (c : N) : Prop := c = 32 \/ fine c.
Lemma fine_still l : Forall fine l -> Forall still l.
Proof. apply Forall_impl. intros c H. now right. Qed.
Lemma still_no l : Forall still l -> ~ In 9 l /\ ~ In 10 l /\ ~ In 35 l.
Proof.
  intros F. rewrite Forall_forall in F. split; [|split]; intros I; destruct (F _ I) as [E|E]; try discriminate E; unfold fine in E; lia.
Qed.
Lemma note_still n : Forall still (print_note n).
Proof.
  assert (L : forall l, Forall good l -> Forall still (lead l)).
  { induction 1 as [|t l [G _] F IH]; [constructor|]. cbn [lead flat_map]. constructor; [now left|]. apply Forall_app. split; [now apply fine_still|exact IH]. }
  assert (R : forall l, Forall good l -> Forall still (trail l)).
  { induction 1 as [|t l [G _] F IH]; [constructor|]. cbn [trail flat_map]. rewrite <- app_assoc. apply Forall_app. split; [now apply fine_still|].
    constructor; [now left|exact IH]. }
  pose proof (toks_good n) as G. destruct (note_text n) as [T|(a & b & w & K & T)]; rewrite T; [now apply L|].
  rewrite K in G. inversion_clear G as [|? ? G1 G']. inversion_clear G' as [|? ? G2 G3].
  apply Forall_app. split; [apply L; apply Forall_cons; [exact G1|apply Forall_cons; [exact G2|apply Forall_nil]]|].
  constructor; [now left|]. now apply R.
Qed.
Lemma notes_still ns : Forall still (flat_map print_note ns).
Proof. apply Forall_flat_map, Forall_forall. intros n _. apply note_still. Qed.

Lemma bytes4 w : w mod 2 ^ 32 = w mod 256 + 256 * (w / 2 ^ 8 mod 256 + 256 * (w / 2 ^ 16 mod 256 + 256 * (w / 2 ^ 24 mod 256))).
Proof.
  change (2 ^ 32) with (256 * (256 * (256 * 256))). rewrite !N.mod_mul_r by discriminate. rewrite !N.div_div by discriminate. reflexivity.
Qed.

Section lines.
Variables (sym : N -> option (list N * N)) (dis : N -> list N -> list N) (le raw : bool).
Hypothesis P : plain sym dis.

Lemma address_cut ea : exists r, print_address sym ea = hex 16 ea ++ r /\ ~ In 9 (print_address sym ea) /\
  ~ In 10 (print_address sym ea) /\ ~ In 35 (print_address sym ea).
Proof.
  unfold print_address. destruct (sym ea) as [[name off]|] eqn:E; eexists; (split; [reflexivity|]).
  - destruct (proj1 P _ _ _ E) as ((N1 & N2) & N3).
    pose proof (still_no _ (fine_still _ (hex_fine 16 ea))) as (A1 & A2 & A3).
    pose proof (still_no _ (fine_still _ (hexs_fine 16 off))) as (B1 & B2 & B3).
    revert A1 A2 A3 B1 B2 B3. generalize (hex 16 ea) (Script_Model.hexs 16 off). intros x y A1 A2 A3 B1 B2 B3. rewrite !in_app_iff. cbn [chars In N_of_ascii N_of_digits]. repeat split; intros H; repeat destruct H as [H|H]; try discriminate H; tauto.
  - pose proof (still_no _ (fine_still _ (hex_fine 16 ea))) as (A1 & A2 & A3).
    revert A1 A2 A3. generalize (hex 16 ea). intros x A1 A2 A3. rewrite !in_app_iff. cbn [chars In N_of_ascii N_of_digits]. repeat split; intros H; repeat destruct H as [H|H]; try discriminate H; tauto.
Qed.
Definition bytes_text (ws : list N) : list N := trail (List.map (hex 2) (flat_map (memory le) ws)).
Lemma raw_text ws : print_raw_insn le raw ws = if raw then 9 :: bytes_text ws else [].
Proof.
  unfold print_raw_insn, bytes_text, trail. destruct raw; [|reflexivity]. cbn [app]. f_equal.
  induction (flat_map (memory le) ws) as [|b l IH]; [reflexivity|]. cbn [List.map flat_map]. now rewrite IH.
Qed.
Lemma bytes_good ws : Forall good (List.map (hex 2) (flat_map (memory le) ws)).
Proof. apply Forall_forall. intros t I. apply in_map_iff in I as (b & <- & _). split; [apply hex_fine|discriminate]. Qed.
Lemma bytes_still ws : Forall still (bytes_text ws).
Proof.
  unfold bytes_text. pose proof (bytes_good ws) as G. induction G as [|t l [G _] F IH]; [constructor|]. cbn [trail flat_map].
  rewrite <- app_assoc. apply Forall_app. split; [now apply fine_still|]. constructor; [now left|exact IH].
Qed.
Lemma memory_words ws : words le (List.map hexadecimal (tokens (bytes_text ws))) = List.map (fun w => w mod 2 ^ 32) ws.
Proof.
  unfold bytes_text. rewrite <- (app_nil_r (trail _)), tokens_trail by apply good_solid, bytes_good.
  cbn [tokens split filter blank negb]. rewrite app_nil_r, map_map.
  rewrite (map_ext _ _ (hexadecimal_hex 2)). change (16 ^ N.of_nat 2) with 256.
  induction ws as [|w ws IH]; [reflexivity|]. cbn [flat_map List.map]. rewrite map_app.
  unfold memory at 1. destruct le; cbn [rev app List.map words]; rewrite !N.mod_mod by discriminate; rewrite IH, bytes4; f_equal.
Qed.

Definition body (v : vline) : list N :=
  print_address sym (v_ea v) ++ print_raw_insn le raw (v_words v) ++ [9] ++ dis (v_ea v) (v_words v)
  ++ (if v_mark v then [9] ++ chars " #" else []) ++ flat_map print_note (v_notes v).
Lemma line_body v : print_line sym dis le raw v = body v ++ [10].
Proof. destruct v as [[[ea ws] m] ns]. unfold body, print_line. cbn [v_ea v_words v_mark v_notes fst snd]. now rewrite <- !app_assoc. Qed.
Lemma body_line v : ~ In 10 (body v).
Proof.
  unfold body. destruct (address_cut (v_ea v)) as (r & _ & _ & A & _). pose proof (proj2 P (v_ea v) (v_words v)) as (D & _).
  pose proof (still_no _ (notes_still (v_notes v))) as (_ & N & _). pose proof (still_no _ (bytes_still (v_words v))) as (_ & B & _).
  rewrite raw_text, !in_app_iff. intros H. destruct H as [H|[H|[H|[H|[H|H]]]]]; try tauto.
  - destruct raw; [|exact H]. destruct H as [H|H]; [discriminate H|tauto].
  - destruct H as [H|[]]. discriminate H.
  - destruct (v_mark v); cbn in H; repeat destruct H as [H|H]; try discriminate H; exact H.
Qed.
Lemma line_read v : (v_mark v = true <-> v_notes v <> []) -> reading le raw (body v) = line_reading raw v.
Proof.
  intros M. unfold reading, line_reading. destruct (address_cut (v_ea v)) as (r & A & A9 & _ & A35).
  pose proof (proj2 P (v_ea v) (v_words v)) as (_ & D). pose proof (still_no _ (bytes_still (v_words v))) as (B9 & _ & B35).
  pose proof (still_no _ (notes_still (v_notes v))) as (_ & _ & N35).
  f_equal; [f_equal|].
  - unfold body. rewrite A, <- app_assoc, firstn_app, Regs_Proofs2.hex_length, PeanoNat.Nat.sub_diag.
    rewrite firstn_all2 by (rewrite Regs_Proofs2.hex_length; lia). rewrite firstn_O, app_nil_r. exact (hexadecimal_hex 16 _).
  - unfold body. rewrite raw_text. destruct raw; [|reflexivity]. cbn [app].
    rewrite split_app, (split_none 9 (print_address sym (v_ea v))) by exact A9. rewrite split_app, (split_none 9 (bytes_text _)) by exact B9.
    cbn [app nth]. apply memory_words.
  - unfold body. rewrite raw_text. destruct (v_mark v) eqn:MK.
    + set (pre := print_address sym (v_ea v) ++ (if raw then 9 :: bytes_text (v_words v) else []) ++ [9] ++ dis (v_ea v) (v_words v) ++ [9; 32]).
      match goal with |- context [split 35 ?t] => replace t with (pre ++ 35 :: flat_map print_note (v_notes v))
        by (unfold pre; rewrite <- !app_assoc; reflexivity) end.
      rewrite split_app, (split_none 35 pre), (split_none 35 (flat_map print_note _)) by
        (first [exact N35 | unfold pre; rewrite !in_app_iff; intros H; destruct H as [H|[H|[H|[H|H]]]];
          [tauto|destruct raw; [destruct H as [H|H]; [discriminate H|tauto]|exact H]|destruct H as [H|[]]; discriminate H|tauto|repeat destruct H as [H|H]; try discriminate H; exact H]]).
      cbn [app]. rewrite notes_tokens. apply notes_read.
    + assert (E : v_notes v = []) by (destruct (v_notes v); [reflexivity|]; destruct M as [_ M]; discriminate M; discriminate).
      rewrite E. cbn [flat_map]. rewrite split_none; [reflexivity|].
      rewrite !in_app_iff. intros H; destruct H as [H|[H|[H|[H|[H|H]]]]];
          [tauto|destruct raw; [destruct H as [H|H]; [discriminate H|tauto]|exact H]|destruct H as [H|[]]; discriminate H|tauto|destruct H|destruct H].
Qed.
Lemma text_read vs : Forall (fun v => v_mark v = true <-> v_notes v <> []) vs ->
  readings le raw (flat_map (print_line sym dis le raw) vs) = List.map (line_reading raw) vs.
Proof.
  intros M. unfold readings. replace (split 10 (flat_map (print_line sym dis le raw) vs)) with (List.map body vs ++ [[]]).
  - rewrite removelast_last, map_map. apply map_ext_in. intros v I. apply line_read. rewrite Forall_forall in M. now apply M.
  - clear M. induction vs as [|v vs IH]; [reflexivity|]. cbn [List.map flat_map]. rewrite line_body, <- app_assoc. cbn [app].
    rewrite split_app, (split_none 10 (body v)) by apply body_line. cbn [app]. now rewrite <- IH.
Qed.
End lines.
