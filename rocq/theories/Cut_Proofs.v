(** Lemmas for C79: two runs of the hardware trace decoder, one on the
    beginning of the bytes of the other. *)
Require Import NArith ZArith List Bool Lia.
Require Import Verif.Word Verif.Codec_Types Verif.HtmBits_Model Verif.Branch_Model.
Require Import Verif.Pwc_Model Verif.Xlate_Model Verif.Htm_Model Verif.Cut_Spec.
Require Verif.Tlb_Model Verif.Bb_Model.
Import ListNotations.
Local Open Scope N_scope.

(** ** Relations *)
Definition ahead (s t : hst) : Prop := starts (h_out s) (h_out t) /\ starts (h_log s) (h_log t).
Lemma starts_refl : forall A (l : list A), starts l l.
Proof. intros. exists []. symmetry. apply app_nil_r. Qed.
Lemma starts_trans : forall A (a b c : list A), starts a b -> starts b c -> starts a c.
Proof. intros A a b c [x ->] [y ->]. exists (x ++ y). apply app_assoc_reverse. Qed.
Lemma starts_app : forall A (a b : list A), starts a (a ++ b).
Proof. intros. exists b. reflexivity. Qed.
Lemma ahead_refl : forall s, ahead s s.
Proof. intros. split; apply starts_refl. Qed.
Lemma ahead_trans : forall a b c, ahead a b -> ahead b c -> ahead a c.
Proof. intros a b c [] []. split; eapply starts_trans; eassumption. Qed.

(** The same state but for the bytes to come *)
Definition with_more (more : list N) (bad : bool) (c : cur) : cur :=
  mk_cur (c_data c ++ more) bad (c_eof c) (c_off c) (c_nr c) (c_nr_rewind c) (c_prev c) (c_rewind c) (c_scanned c) (c_sum c).
Definition twin (more : list N) (bad : bool) (s : hst) : hst := set_cur (with_more more bad (h_cur s)) s.
(** Within the cut bytes *)
Definition alive (s : hst) : Prop := c_bad (h_cur s) = true /\ c_eof (h_cur s) = false.
(** At their end *)
Definition dead (s : hst) : Prop :=
  c_bad (h_cur s) = true /\ c_rewind (h_cur s) = false /\ (length (c_data (h_cur s)) < 8)%nat.

Section CUT.
  Variable qs : Tlb_Model.qsort.
  Variable stale : Z -> list N.
  Variable junk : Z -> qrec.
  Variable full : bool.
  Variable more : list N.
  Variable bad : bool.

  Definition grows {A} (m : H A) : Prop := forall s, match m s with HOk (s', _) => ahead s s' | HErr _ => True end.
  (** From the end of the bytes on *)
  Definition silent {A} (F : A -> Prop) (m : H A) : Prop := forall s, dead s ->
    match m s with
    | HErr e => e = HAssert
    | HOk (s', a) => dead s' /\ F a /\ h_out s' = h_out s /\ h_log s' = h_log s
    end.
  Definition sim {A} (F : A -> Prop) (m m' : H A) : Prop := forall s, alive s ->
    match m s with
    | HErr e => m' (twin more bad s) = HErr e \/ e = HAssert \/ e = HFuel
    | HOk (s', a) =>
        (m' (twin more bad s) = HOk (twin more bad s', a) /\ alive s')
        \/ (dead s' /\ F a /\ match m' (twin more bad s) with HOk (t', _) => ahead s' t' | HErr _ => True end)
    end.

  Lemma grows_bind : forall A B (m : H A) (k : A -> H B), grows m -> (forall a, grows (k a)) -> grows (hbind m k).
  Proof.
    intros A B m k Hm Hk s. unfold hbind. specialize (Hm s). destruct (m s) as [[s' a]|e]; [|exact I].
    specialize (Hk a s'). destruct (k a s') as [[s'' b]|e]; [|exact I]. eapply ahead_trans; eassumption.
  Qed.
  Lemma grows_ret : forall A (a : A), grows (hret a).
  Proof. intros A a s. apply ahead_refl. Qed.
  Lemma grows_error : forall A e, grows (@herror A e).
  Proof. intros A e s. exact I. Qed.
  Lemma grows_get : forall A (f : hst -> A), grows (hget f).
  Proof. intros A f s. apply ahead_refl. Qed.
  Lemma grows_set : forall f, (forall s, ahead s (f s)) -> grows (hset f).
  Proof. intros f Hf s. apply Hf. Qed.

  Lemma silent_bind : forall A B (F : A -> Prop) (G : B -> Prop) (m : H A) (k : A -> H B),
    silent F m -> (forall a, F a -> silent G (k a)) -> silent G (hbind m k).
  Proof.
    intros A B F G m k Hm Hk s D. unfold hbind. specialize (Hm s D). destruct (m s) as [[s' a]|e]; [|exact Hm].
    destruct Hm as (D' & Fa & Ho & Hl). specialize (Hk a Fa s' D'). destruct (k a s') as [[s'' b]|e]; [|exact Hk].
    destruct Hk as (D'' & Gb & Ho' & Hl'). repeat split; try assumption; try apply D''; congruence.
  Qed.
  Lemma silent_ret : forall A (F : A -> Prop) a, F a -> silent F (hret a).
  Proof. intros A F a Ha s D. cbn. repeat split; try assumption; apply D. Qed.

  Lemma sim_bind : forall A B (F : A -> Prop) (G : B -> Prop) (m m' : H A) (k k' : A -> H B),
    sim F m m' -> (forall a, sim G (k a) (k' a)) -> (forall a, F a -> silent G (k a)) -> (forall a, grows (k' a)) ->
    sim G (hbind m k) (hbind m' k').
  Proof.
    intros A B F G m m' k k' Hm Hk Hs Hg s L. unfold hbind. specialize (Hm s L). destruct (m s) as [[s' a]|e].
    - destruct Hm as [[-> L']|(D & Fa & X)].
      + specialize (Hk a s' L'). destruct (k a s') as [[s'' b]|e]; exact Hk.
      + specialize (Hs a Fa s' D). destruct (k a s') as [[s'' b]|e].
        * right. destruct Hs as (D' & Gb & Ho & Hl). split; [exact D'|]. split; [exact Gb|].
          destruct (m' (twin more bad s)) as [[t a']|e]; [|exact I].
          specialize (Hg a' t). destruct (k' a' t) as [[t' b']|e]; [|exact I].
          eapply ahead_trans; [|exact Hg]. destruct X as [X1 X2]. split; congruence.
        * right. left. exact Hs.
    - destruct Hm as [-> | Hm]; [left; reflexivity|right; exact Hm].
  Qed.
  (** What reads no bytes *)
  Definition blind {A} (m : H A) : Prop := forall s,
    match m s with
    | HErr e => m (twin more bad s) = HErr e
    | HOk (s', a) => m (twin more bad s) = HOk (twin more bad s', a)
                     /\ c_bad (h_cur s') = c_bad (h_cur s) /\ c_eof (h_cur s') = c_eof (h_cur s)
    end.
  Lemma sim_blind : forall A (F : A -> Prop) (m : H A), blind m -> sim F m m.
  Proof.
    intros A F m Hm s [L1 L2]. specialize (Hm s). destruct (m s) as [[s' a]|e]; [|left; exact Hm].
    destruct Hm as (E & B1 & B2). left. split; [exact E|]. split; congruence.
  Qed.
  Lemma blind_bind : forall A B (m : H A) (k : A -> H B), blind m -> (forall a, blind (k a)) -> blind (hbind m k).
  Proof.
    intros A B m k Hm Hk s. unfold hbind. specialize (Hm s). destruct (m s) as [[s' a]|e]; [|rewrite Hm; reflexivity].
    destruct Hm as (E & B1 & B2). rewrite E. specialize (Hk a s'). destruct (k a s') as [[s'' b]|e]; [|exact Hk].
    destruct Hk as (E' & B1' & B2'). split; [exact E'|]. split; congruence.
  Qed.
  Lemma blind_ret : forall A (a : A), blind (hret a).
  Proof. intros A a s. cbn. repeat split. Qed.
  Lemma blind_error : forall A e, blind (@herror A e).
  Proof. intros A e s. reflexivity. Qed.
  Lemma blind_get : forall A (f : hst -> A), (forall s, f (twin more bad s) = f s) -> blind (hget f).
  Proof. intros A f Hf s. unfold hget. rewrite Hf. repeat split. Qed.
  Lemma blind_set : forall f, (forall s, f (twin more bad s) = twin more bad (f s)) -> (forall s, h_cur (f s) = h_cur s) ->
    blind (hset f).
  Proof. intros f Hf Hc s. unfold hset. rewrite Hf, Hc. repeat split. Qed.

  (** ** The stream *)
  Definition none {A} (o : option A) : Prop := o = None.
  Lemma fetch_internal_silent : silent none (fetch_internal stale).
  Proof.
    intros s (D1 & D2 & D3). unfold fetch_internal, htm_read. rewrite D2, D1. cbn [andb].
    destruct (Nat.ltb_spec (length (firstn 8 (c_data (h_cur s)))) 8) as [Hs|Hs]; [|rewrite firstn_length in Hs; lia].
    cbn. repeat split; assumption.
  Qed.
  Lemma fetch_internal_grows : grows (fetch_internal stale).
  Proof.
    intros s. unfold fetch_internal. destruct (htm_read stale (h_cur s)) as [[c r] buf].
    destruct (r <=? 0)%Z; [split; apply starts_refl|]. destruct (c_nr c =? 2147483647)%Z; [exact I|]. split; apply starts_refl.
  Qed.
  Lemma fetch_internal_sim : sim none (fetch_internal stale) (fetch_internal stale).
  Proof.
    intros s L. destruct (c_rewind (h_cur s)) eqn:Er.
    - destruct L as [L1 L2]. unfold fetch_internal, htm_read, twin. cbn -[firstn skipn Nat.ltb]. rewrite Er. cbn -[firstn skipn].
      destruct (c_nr (h_cur s) =? 2147483647)%Z; [left; reflexivity|].
      left. split; [reflexivity|]. split; assumption.
    - destruct (le_lt_dec 8 (length (c_data (h_cur s)))) as [Hl|Hl].
      + destruct L as [L1 L2].
        assert (E1 : firstn 8 (c_data (h_cur s) ++ more) = firstn 8 (c_data (h_cur s))).
        { rewrite firstn_app. replace (8 - length (c_data (h_cur s)))%nat with O by lia. apply app_nil_r. }
        assert (E2 : skipn 8 (c_data (h_cur s) ++ more) = skipn 8 (c_data (h_cur s)) ++ more).
        { rewrite skipn_app. replace (8 - length (c_data (h_cur s)))%nat with O by lia. reflexivity. }
        assert (E3 : length (firstn 8 (c_data (h_cur s))) = 8%nat) by (rewrite firstn_length; lia).
        unfold fetch_internal, htm_read, twin. cbn -[firstn skipn Nat.ltb]. rewrite Er.
        rewrite E1, E2, E3, L1, L2. change (8 <? 8)%nat with false. rewrite !andb_false_r. change (8 =? 0)%nat with false.
        cbn -[firstn skipn].
        destruct (c_nr (h_cur s) =? 2147483647)%Z; [left; reflexivity|].
        left. split; [reflexivity|]. split; cbn -[firstn skipn]; assumption || reflexivity.
      + pose proof (fetch_internal_grows (twin more bad s)) as G.
        assert (D : dead s) by (destruct L; repeat split; assumption).
        pose proof (fetch_internal_silent s D) as Q. destruct (fetch_internal stale s) as [[s' a]|e]; [|right; left; exact Q].
        destruct Q as (D' & Na & Ho & Hl'). right. split; [exact D'|]. split; [exact Na|].
        destruct (fetch_internal stale (twin more bad s)) as [[t' b]|]; [|exact I].
        destruct G as [G1 G2]. split; [rewrite Ho; exact G1|rewrite Hl'; exact G2].
  Qed.
  Lemma rewind_blind : forall v, blind (htm_rewind v).
  Proof.
    intros v s. unfold htm_rewind, twin. cbn. destruct (c_nr_rewind (h_cur s) =? c_nr (h_cur s))%Z; [reflexivity|].
    repeat split.
  Qed.
  Lemma rewind_grows : forall v, grows (htm_rewind v).
  Proof.
    intros v s. unfold htm_rewind. destruct (c_nr_rewind (h_cur s) =? c_nr (h_cur s))%Z; [exact I|]. split; apply starts_refl.
  Qed.

  Lemma grows_if : forall A (b : bool) (m m' : H A), grows m -> grows m' -> grows (if b then m else m').
  Proof. intros A [|]; auto. Qed.
  Lemma blind_if : forall A (b : bool) (m m' : H A), blind m -> blind m' -> blind (if b then m else m').
  Proof. intros A [|]; auto. Qed.
  Lemma sim_if : forall A (F : A -> Prop) (b : bool) (m m' n n' : H A), sim F m n -> sim F m' n' ->
    sim F (if b then m else m') (if b then n else n').
  Proof. intros A F [|]; auto. Qed.

  (** ** Operations without reads *)
  Ltac grow1 :=
    lazymatch goal with
    | |- grows (hbind _ _) => apply grows_bind; [|intros ?]
    | |- grows (hret _) => apply grows_ret
    | |- grows (herror _) => apply grows_error
    | |- grows (hget _) => apply grows_get
    | |- grows (hset _) => apply grows_set; intros ?; split; cbn; first [apply starts_refl | apply starts_app]
    | |- grows (htm_rewind _) => apply rewind_grows
    | |- grows (fetch_internal _) => apply fetch_internal_grows
    | |- grows (if ?b then _ else _) => first [apply grows_if | destruct b]
    | |- grows (match ?x with _ => _ end) => destruct x
    end.
  Ltac grow := repeat (cbv zeta; grow1).
  Ltac blind1 :=
    lazymatch goal with
    | |- blind (hbind _ _) => apply blind_bind; [|intros ?]
    | |- blind (hret _) => apply blind_ret
    | |- blind (herror _) => apply blind_error
    | |- blind (hget _) => apply blind_get; intros ?; reflexivity
    | |- blind (hset _) => apply blind_set; intros ?; reflexivity
    | |- blind (htm_rewind _) => apply rewind_blind
    | |- blind (if ?b then _ else _) => first [apply blind_if | destruct b]
    | |- blind (match ?x with _ => _ end) => destruct x
    end.
  Ltac blind := repeat (cbv zeta; blind1).

  Lemma count_grows : forall c, grows (count c).
  Proof. intros. unfold count. grow. Qed.
  Lemma count_blind : forall c, blind (count c).
  Proof. intros. unfold count. blind. Qed.
  Lemma stamp_grows : forall v, grows (decode_stamp full v).
  Proof. intros. unfold decode_stamp, count. grow. Qed.
  Lemma stamp_blind : forall v, blind (decode_stamp full v).
  Proof. intros. unfold decode_stamp, count. blind. Qed.
  Lemma done8_grows : forall i p, grows (done8 junk full i p).
  Proof. intros. unfold done8, count. grow. Qed.
  Lemma done8_blind : forall i p, blind (done8 junk full i p).
  Proof. intros. unfold done8, count. blind. Qed.
  Lemma insert_grows : forall x, grows (partial_insert_h x).
  Proof. intros. unfold partial_insert_h. grow. Qed.
  Lemma insert_blind : forall x, blind (partial_insert_h x).
  Proof. intros. unfold partial_insert_h. blind. Qed.
  Lemma insert_all_grows : forall l, grows (partial_insert_all l).
  Proof. induction l; cbn [partial_insert_all]; [apply grows_ret|]. apply grows_bind; [apply insert_grows|intros; assumption]. Qed.
  Lemma insert_all_blind : forall l, blind (partial_insert_all l).
  Proof. induction l; cbn [partial_insert_all]; [apply blind_ret|]. apply blind_bind; [apply insert_blind|intros; assumption]. Qed.
  Lemma insn_side_grows : forall a m, grows (insn_side a m).
  Proof. intros. unfold insn_side, x_decode, x_lookup, x_address, page_ctr, count, walk_of. grow. Qed.
  Lemma insn_side_blind : forall a m, blind (insn_side a m).
  Proof. intros. unfold insn_side, x_decode, x_lookup, x_address, page_ctr, count, walk_of. blind. Qed.
  Lemma data_side_grows : forall c x m e r, grows (data_side c x m e r).
  Proof. intros. unfold data_side, x_decode, x_lookup, x_address, page_ctr, count, walk_of. grow. Qed.
  Lemma data_side_blind : forall c x m e r, blind (data_side c x m e r).
  Proof. intros. unfold data_side, x_decode, x_lookup, x_address, page_ctr, count, walk_of. blind. Qed.
  Lemma done10_grows : forall i m a d, grows (done10 junk full i m a d).
  Proof.
    intros. unfold done10.
    repeat (cbv zeta; lazymatch goal with
      | |- grows (insn_side _ _) => apply insn_side_grows
      | |- grows (partial_insert_all _) => apply insert_all_grows
      | |- grows (data_side _ _ _ _ _) => apply data_side_grows
      | _ => grow1 end).
  Qed.
  Lemma done10_blind : forall i m a d, blind (done10 junk full i m a d).
  Proof.
    intros. unfold done10.
    repeat (cbv zeta; lazymatch goal with
      | |- blind (insn_side _ _) => apply insn_side_blind
      | |- blind (partial_insert_all _) => apply insert_all_blind
      | |- blind (data_side _ _ _ _ _) => apply data_side_blind
      | _ => blind1 end).
  Qed.

  (** ** Operations with reads *)
  Lemma sim_then : forall A B (G : B -> Prop) (m : H A) (k k' : A -> H B),
    blind m -> (forall a, sim G (k a) (k' a)) -> (forall a, grows (k' a)) -> sim G (hbind m k) (hbind m k').
  Proof.
    intros A B G m k k' Hm Hk Hg. apply (sim_bind _ _ (fun _ => False)); [apply sim_blind; exact Hm|exact Hk| |exact Hg].
    intros a [].
  Qed.
  Lemma fetch_loop_grows : forall f, grows (fetch_loop stale full f).
  Proof. 
    induction f as [|f IH]; cbn [fetch_loop]; [apply grows_error|]. apply grows_bind; [apply fetch_internal_grows|].
    intros [v|]; [|apply grows_ret]. destruct (bits v 0 19 =? 0xaceff); [|apply grows_ret].
    apply grows_bind; [apply stamp_grows|]. intros [|]; [exact IH|apply grows_ret].
   Qed.
  Lemma fetch_loop_sim : forall f f', (f <= f')%nat -> sim none (fetch_loop stale full f) (fetch_loop stale full f').
  Proof.
    induction f as [|f IH]; intros f' Hf.
    - intros s L. cbn. right. right. reflexivity.
    - destruct f' as [|f']; [lia|]. cbn [fetch_loop].
      apply (sim_bind _ _ none); [apply fetch_internal_sim| | |].
      + intros [v|]; [|apply sim_blind, blind_ret]. destruct (bits v 0 19 =? 0xaceff); [|apply sim_blind, blind_ret].
        apply sim_then; [apply stamp_blind| |].
        * intros [|]; [apply IH; lia|apply sim_blind, blind_ret].
        * intros [|]; [apply fetch_loop_grows|apply grows_ret].
      + intros a ->. apply silent_ret. reflexivity.
      + intros [v|]; [|apply grows_ret]. destruct (bits v 0 19 =? 0xaceff); [|apply grows_ret].
        apply grows_bind; [apply stamp_grows|]. intros [|]; [apply fetch_loop_grows|apply grows_ret].
  Qed.
  Lemma fuel_twin : forall s, (fuel_of s <= fuel_of (twin more bad s))%nat.
  Proof. intros. unfold fuel_of, twin. cbn. rewrite app_length. lia. Qed.
  Lemma fetch_grows : grows (htm_decode_fetch stale full).
  Proof. intros s. unfold htm_decode_fetch. apply fetch_loop_grows. Qed.
  Lemma fetch_sim : sim none (htm_decode_fetch stale full) (htm_decode_fetch stale full).
  Proof. intros s L. unfold htm_decode_fetch. exact (fetch_loop_sim _ _ (fuel_twin s) s L). Qed.

  Definition minus (r : Z) : Prop := r = (-1)%Z.
  Ltac grown :=
    repeat (cbv zeta; lazymatch goal with
      | |- grows (htm_decode_fetch _ _) => apply fetch_grows
      | |- grows (done8 _ _ _ _) => apply done8_grows
      | |- grows (done10 _ _ _ _ _ _) => apply done10_grows
      | |- grows (decode_stamp _ _) => apply stamp_grows
      | |- grows (count _) => apply count_grows
      | |- grows (partial_insert_h _) => apply insert_grows
      | |- grows (partial_insert_all _) => apply insert_all_grows
      | _ => first [grow1 | match goal with H : context [grows] |- _ => apply H end] end).
  Ltac blinded :=
    repeat (cbv zeta; lazymatch goal with
      | |- blind (done8 _ _ _ _) => apply done8_blind
      | |- blind (done10 _ _ _ _ _ _) => apply done10_blind
      | |- blind (decode_stamp _ _) => apply stamp_blind
      | |- blind (count _) => apply count_blind
      | |- blind (partial_insert_h _) => apply insert_blind
      | |- blind (partial_insert_all _) => apply insert_all_blind
      | _ => blind1 end).
  Ltac sim1 extra :=
    lazymatch goal with
    | |- sim _ (hbind (htm_decode_fetch _ _) _) _ =>
        apply (sim_bind _ _ none);
          [apply fetch_sim|intros [?v|]|intros ? ->; apply silent_ret; reflexivity|intros ?]
    | |- sim _ (hbind _ _) _ => apply sim_then; [|intros ?|intros ?]
    | |- sim _ (if ?b then _ else _) (if ?b then _ else _) => first [apply sim_if | destruct b]
    | |- sim _ (match ?x with _ => _ end) _ => destruct x
    | |- sim _ (hret _) _ => apply sim_blind; apply blind_ret
    | |- sim _ (herror _) _ => apply sim_blind; apply blind_error
    | |- sim _ (done8 _ _ _ _) _ => apply sim_blind; apply done8_blind
    | |- sim _ (done10 _ _ _ _ _ _) _ => apply sim_blind; apply done10_blind
    | |- blind _ => solve [blinded]
    | |- sim _ _ _ => extra
    | |- grows _ => first [solve [grown] | idtac]
    end.
  Ltac simt extra := repeat (cbv zeta; sim1 extra).

  Lemma dra8_grows : forall i p, grows (dra8 stale junk full i p).
  Proof. intros. unfold dra8. grown. Qed.
  Lemma dra8_sim : forall i p, sim minus (dra8 stale junk full i p) (dra8 stale junk full i p).
  Proof. intros. unfold dra8. simt ltac:(fail). Qed.
  Lemma dea8_grows : forall i p, grows (dea8 stale junk full i p).
  Proof. intros. unfold dea8. pose proof dra8_grows. grown. Qed.
  Lemma dea8_sim : forall i p, sim minus (dea8 stale junk full i p) (dea8 stale junk full i p).
  Proof. intros. unfold dea8. pose proof dra8_grows. simt ltac:(apply dra8_sim). Qed.
  Lemma ira8_grows : forall i b c p, grows (ira8 qs stale junk full i b c p).
  Proof. intros. unfold ira8. pose proof dea8_grows. grown. Qed.
  Lemma ira8_sim : forall i b c p, sim minus (ira8 qs stale junk full i b c p) (ira8 qs stale junk full i b c p).
  Proof. intros. unfold ira8. pose proof dea8_grows. simt ltac:(apply dea8_sim). Qed.

  Lemma insn8_grows : forall v, grows (decode_insn8 qs stale junk full v).
  Proof. intros. unfold decode_insn8. pose proof ira8_grows. grown. Qed.
  Lemma insn8_sim : forall v, sim minus (decode_insn8 qs stale junk full v) (decode_insn8 qs stale junk full v).
  Proof. intros. unfold decode_insn8. pose proof ira8_grows. simt ltac:(apply ira8_sim). Qed.

  Lemma walks_grows : forall n acc, grows (xlate_walks stale full n acc).
  Proof. induction n as [|n IH]; intros; cbn [xlate_walks]; grown. Qed.
  Lemma walks_sim : forall n acc, sim none (xlate_walks stale full n acc) (xlate_walks stale full n acc).
  Proof.
    induction n as [|n IH]; intros; cbn [xlate_walks]; [apply sim_blind, blind_ret|]. pose proof (walks_grows n). simt ltac:(apply IH).
  Qed.
  Lemma xlate_grows : forall v, grows (decode_insn_xlate stale full v).
  Proof. intros. unfold decode_insn_xlate. pose proof walks_grows. grown. Qed.
  Lemma xlate_sim : forall v, sim none (decode_insn_xlate stale full v) (decode_insn_xlate stale full v).
  Proof.
    intros. unfold decode_insn_xlate. destruct (negb _); [apply sim_blind, blind_ret|].
    destruct (negb _); [apply sim_blind, blind_ret|].
    apply (sim_bind _ _ none); [apply walks_sim| | |].
    - intros [ws|]; apply sim_blind, blind_ret.
    - intros ? ->. apply silent_ret. reflexivity.
    - intros ?. grown.
  Qed.
  Lemma ieara_grows : grows (decode_ieara stale full).
  Proof. unfold decode_ieara. grown. Qed.
  Lemma ieara_sim : sim none (decode_ieara stale full) (decode_ieara stale full).
  Proof. unfold decode_ieara. simt ltac:(fail). Qed.

  Lemma pre_grows : forall f v a, grows (pre_loop stale full f v a).
  Proof.
    induction f as [|f IH]; intros; cbn [pre_loop]; [grown|]. pose proof xlate_grows. pose proof ieara_grows. grown.
  Qed.
  Lemma pre_sim : forall f f' v a, (f <= f')%nat -> sim none (pre_loop stale full f v a) (pre_loop stale full f' v a).
  Proof.
    induction f as [|f IH]; intros f' v a Hf.
    - intros s L. cbn. right. right. reflexivity.
    - destruct f' as [|f']; [lia|]. cbn [pre_loop]. cbv zeta.
      assert (N : forall a, sim none
                  (w <-- htm_decode_fetch stale full ;; match w with None => hret None | Some v' => pre_loop stale full f v' a end)
                  (w <-- htm_decode_fetch stale full ;; match w with None => hret None | Some v' => pre_loop stale full f' v' a end)).
      { intros a'. pose proof (pre_grows f'). simt ltac:(apply IH; lia). }
      assert (M : forall a, grows
                  (w <-- htm_decode_fetch stale full ;; match w with None => hret None | Some v' => pre_loop stale full f' v' a end)).
      { intros a'. pose proof (pre_grows f'). grown. }
      destruct (_ && _).
      { apply sim_then; [blinded|intros _|intros _].
        - destruct (2 <=? length (a_ixl a))%nat; [apply sim_blind, blind_error|].
          apply (sim_bind _ _ none); [apply xlate_sim| | |].
          + intros [x|]; [apply N|apply sim_blind, blind_ret].
          + intros ? ->. apply silent_ret. reflexivity.
          + intros [x|]; [apply M|apply grows_ret].
        - destruct (2 <=? length (a_ixl a))%nat; [apply grows_error|]. apply grows_bind; [apply xlate_grows|].
          intros [x|]; [apply M|apply grows_ret]. }
      destruct (rec_type v =? REC_TYPE_IEARA).
      { apply (sim_bind _ _ none); [apply ieara_sim| | |].
        - intros [[ea ra]|]; [|apply sim_blind, blind_ret]. apply sim_then; [blinded|intros _|intros _].
          + apply sim_then; [blinded|intros _; apply N|intros _; apply M].
          + apply grows_bind; [grown|intros _; apply M].
        - intros ? ->. apply silent_ret. reflexivity.
        - intros [[ea ra]|]; [|apply grows_ret]. apply grows_bind; [grown|intros _]. apply grows_bind; [grown|intros _; apply M]. }
      destruct (rec_type v =? REC_TYPE_XLATE); [|apply sim_blind, blind_ret].
      apply sim_then; [blinded|intros _|intros _].
      + destruct (2 <=? length (a_dxl a))%nat; [apply sim_blind, blind_error|].
        apply (sim_bind _ _ none); [apply xlate_sim| | |].
        * intros [x|]; [apply N|apply sim_blind, blind_ret].
        * intros ? ->. apply silent_ret. reflexivity.
        * intros [x|]; [apply M|apply grows_ret].
      + destruct (2 <=? length (a_dxl a))%nat; [apply grows_error|]. apply grows_bind; [apply xlate_grows|].
        intros [x|]; [apply M|apply grows_ret].
  Qed.
  Lemma pre_fuel_sim : forall v a, sim none (fun s => pre_loop stale full (fuel_of s) v a s) (fun s => pre_loop stale full (fuel_of s) v a s).
  Proof. intros v a s L. exact (pre_sim _ _ v a (fuel_twin s) s L). Qed.
  Lemma pre_fuel_grows : forall v a, grows (fun s => pre_loop stale full (fuel_of s) v a s).
  Proof. intros v a s. apply pre_grows. Qed.

  Lemma data_grows : forall e n d, grows (data_loop stale full e n d).
  Proof. induction n as [|n IH]; intros; cbn [data_loop]; grown. Qed.
  Lemma data_sim : forall e n d, sim none (data_loop stale full e n d) (data_loop stale full e n d).
  Proof. induction n as [|n IH]; intros; cbn [data_loop]; [apply sim_blind, blind_ret|]. pose proof (data_grows e n). simt ltac:(apply IH). Qed.
  Lemma words_grows : forall i, grows (data_words stale full i).
  Proof. intros. unfold data_words. pose proof data_grows. grown. Qed.
  Lemma words_sim : forall i, sim none (data_words stale full i) (data_words stale full i).
  Proof.
    intros. unfold data_words. pose proof data_grows. apply (sim_bind _ _ none).
    - simt ltac:(fail).
    - intros [p|]; simt ltac:(apply data_sim).
    - intros ? ->. apply silent_ret. reflexivity.
    - intros ?. grown.
  Qed.

  Lemma insn10_grows : forall v, grows (decode_insn10 stale junk full v).
  Proof.
    intros. unfold decode_insn10. apply grows_bind; [grown|intros _]. apply grows_bind; [grown|intros _].
    apply grows_bind; [apply pre_fuel_grows|]. pose proof words_grows. intros ?. grown.
  Qed.
  Lemma insn10_sim : forall v, sim minus (decode_insn10 stale junk full v) (decode_insn10 stale junk full v).
  Proof.
    intros. unfold decode_insn10. pose proof words_grows. apply sim_then; [blinded|intros _|intros _].
    2:{ apply grows_bind; [grown|intros _]. apply grows_bind; [apply pre_fuel_grows|]. intros ?. grown. }
    apply sim_then; [blinded|intros _|intros _].
    2:{ apply grows_bind; [apply pre_fuel_grows|]. intros ?. grown. }
    apply (sim_bind _ _ none); [apply pre_fuel_sim| | |].
    - intros [[w a]|]; [|apply sim_blind, blind_ret]. destruct (decode_info10 w) as [info|]; [|apply sim_blind, blind_ret].
      apply sim_then; [blinded|intros _|intros _; grown].
      apply (sim_bind _ _ none); [apply fetch_sim| | |].
      + intros [x|]; [|apply sim_blind, blind_ret]. cbv zeta. apply (sim_bind _ _ none); [apply words_sim| | |].
        * intros [d|]; [apply sim_blind, done10_blind|apply sim_blind, blind_ret].
        * intros ? ->. apply silent_ret. reflexivity.
        * intros ?. grown.
      + intros ? ->. apply silent_ret. reflexivity.
      + intros ?. grown.
    - intros ? ->. apply silent_ret. reflexivity.
    - intros ?. grown.
  Qed.

  (** ** The main loop *)
  Definition any {A} (_ : A) : Prop := True.
  Lemma one_grows : grows (decode_one qs stale junk full).
  Proof. unfold decode_one. pose proof insn8_grows. pose proof insn10_grows. grown. Qed.
  Lemma errors_silent : forall r, silent any
    (_ <-- (if (r =? -2)%Z then hret tt else hret tt) ;;
     if (r <? 0)%Z then
       e <-- hget h_errors ;;
       _ <-- hset (set_errors (e + 1)) ;;
       if (100 <? e)%Z then herror HAssert else hret true
     else _ <-- hset (set_errors 0) ;; hret true).
  Proof.
    intros r s D. unfold hbind, hget, hset, hret, herror. destruct (r =? -2)%Z; destruct (r <? 0)%Z;
      try destruct (100 <? h_errors s)%Z; cbn; unfold any; repeat split; try reflexivity; apply D.
  Qed.
  Lemma one_sim : sim any (decode_one qs stale junk full) (decode_one qs stale junk full).
  Proof.
    unfold decode_one. pose proof insn8_grows. pose proof insn10_grows.
    apply (sim_bind _ _ none); [apply fetch_internal_sim| | |].
    - intros [v|]; [|apply sim_blind, blind_ret]. destruct (v =? 0); [apply sim_blind, blind_ret|].
      apply (sim_bind _ _ minus).
      + destruct (bits v 0 19 =? 0xACEFF); [apply sim_blind; blinded|].
        destruct (bits v 36 55 =? 0xABCDE); [apply insn8_sim|].
        destruct (bits v 36 55 =? 0xABCDF); [apply insn10_sim|]. apply sim_blind, blind_ret.
      + intros r. apply sim_blind. blinded.
      + intros r ->. exact (errors_silent (-1)%Z).
      + intros r. grown.
    - intros ? ->. apply silent_ret. exact I.
    - intros ?. grown.
  Qed.
  Lemma one_silent : silent (fun b => b = false) (decode_one qs stale junk full).
  Proof.
    unfold decode_one. apply (silent_bind _ _ none); [apply fetch_internal_silent|]. intros ? ->. apply silent_ret. reflexivity.
  Qed.
  Lemma loop_grows : forall f, grows (decode_loop qs stale junk full f).
  Proof. induction f as [|f IH]; cbn [decode_loop]; [grown|]. pose proof one_grows. grown. Qed.
  Lemma loop_silent : forall f s, dead s ->
    match decode_loop qs stale junk full f s with
    | HErr e => e = HAssert \/ e = HFuel
    | HOk (s', _) => dead s' /\ h_out s' = h_out s /\ h_log s' = h_log s
    end.
  Proof.
    intros [|f] s D; cbn [decode_loop]; [right; reflexivity|]. unfold hbind. pose proof (one_silent s D) as Q.
    destruct (decode_one qs stale junk full s) as [[s' b]|e]; [|left; exact Q].
    destruct Q as (D' & -> & Ho & Hl). cbn. repeat split; try assumption; apply D'.
  Qed.
  Lemma loop_sim : forall f f' s, (f <= f')%nat -> alive s ->
    match decode_loop qs stale junk full f s with
    | HErr e => decode_loop qs stale junk full f' (twin more bad s) = HErr e \/ e = HAssert \/ e = HFuel
    | HOk (s', _) => match decode_loop qs stale junk full f' (twin more bad s) with HOk (t', _) => ahead s' t' | HErr _ => True end
    end.
  Proof.
    induction f as [|f IH]; intros f' s Hf L; [right; right; reflexivity|].
    destruct f' as [|f']; [lia|]. cbn [decode_loop]. unfold hbind.
    pose proof (one_sim s L) as Q. destruct (decode_one qs stale junk full s) as [[s1 b]|e].
    - destruct Q as [[-> L']|(D & _ & X)].
      + destruct b; [apply IH; [lia|exact L']|]. cbn. split; apply starts_refl.
      + pose proof (loop_silent f s1 D) as Z.
        assert (W : match (match decode_one qs stale junk full (twin more bad s) with
                           | HOk (s', a) => (if a then decode_loop qs stale junk full f' else hret tt) s'
                           | HErr e => HErr e end) with HOk (t', _) => ahead s1 t' | HErr _ => True end).
        { destruct (decode_one qs stale junk full (twin more bad s)) as [[t1 b1]|]; [|exact I].
          destruct b1; [|exact X]. pose proof (loop_grows f' t1) as G.
          destruct (decode_loop qs stale junk full f' t1) as [[t2 u]|]; [|exact I]. eapply ahead_trans; eassumption. }
        destruct b; [|exact W].
        destruct (decode_loop qs stale junk full f s1) as [[s2 u]|e]; [|right; exact Z].
        destruct Z as (_ & Ho & Hl).
        match goal with |- match ?m with _ => _ end => destruct m as [[t2 u']|]; [|exact I] end.
        destruct W as [W1 W2]. split; congruence.
    - destruct Q as [-> | Q]; [left; reflexivity|right; exact Q].
  Qed.
End CUT.

(** ** The decoder *)
Lemma decode_cut : forall qs stale junk full bytes more bad,
  match htm_decode qs stale junk full bytes true with
  | HErr e => htm_decode qs stale junk full (bytes ++ more) bad = HErr e \/ e = HAssert \/ e = HFuel
  | HOk s => match htm_decode qs stale junk full (bytes ++ more) bad with HOk t => ahead s t | HErr _ => True end
  end.
Proof.
  intros. unfold htm_decode. destruct Tlb_Model.tlb_init as [tlb|e]; [|left; reflexivity].
  destruct Bb_Model.bb_init as [bb|e]; [|left; reflexivity].
  pose proof (loop_sim qs stale junk full more bad (2 * length bytes + 8) (2 * length (bytes ++ more) + 8)
                (init_st bytes true tlb bb)) as Q.
  specialize (Q ltac:(rewrite app_length; lia) ltac:(split; reflexivity)).
  change (twin more bad (init_st bytes true tlb bb)) with (init_st (bytes ++ more) bad tlb bb) in Q.
  destruct (decode_loop qs stale junk full (2 * length bytes + 8) (init_st bytes true tlb bb)) as [[s u]|e].
  - destruct (decode_loop _ _ _ _ _ (init_st (bytes ++ more) bad tlb bb)) as [[t u']|]; exact Q.
  - destruct Q as [-> | Q]; [left; reflexivity|right; exact Q].
Qed.
