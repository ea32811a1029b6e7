(** Proofs for C30: the decoder on the word stream. *)
Require Import NArith ZArith List Bool Lia.
Require Import ZifyBool ZifyN ZifyNat.
Require Import Verif.Word Verif.Codec_Types Verif.HtmBits_Model Verif.HtmBits_Spec.
Require Import Verif.Htm_Model Verif.Htm_Spec Verif.Htm_Proofs.
Require Import Verif.Pwc_Model Verif.Xlate_Model.
Require Verif.Tlb_Model Verif.Bb_Model.
Import ListNotations.
Local Open Scope N_scope.

(** Errors that do occur. *)
Definition fine (e : herr) : Prop := e <> HFuel /\ e <> HStuck.
Definition tri {A} (P : cur -> Prop) (m : H A) (Q : A -> cur -> Prop) : Prop :=
  forall s, P (h_cur s) -> match m s with HOk (s', a) => Q a (h_cur s') | HErr e => fine e end.
(** Commands that leave the stream alone. *)
Definition neutral {A} (m : H A) : Prop :=
  forall s, match m s with HOk (s', _) => h_cur s' = h_cur s | HErr e => fine e end.

Lemma tri_ret : forall A (a : A) (P : cur -> Prop) (Q : A -> cur -> Prop), (forall c, P c -> Q a c) -> tri P (hret a) Q.
Proof. intros A a P Q H s HP. cbn. auto. Qed.
Lemma tri_error : forall A e P (Q : A -> cur -> Prop), fine e -> tri P (herror e) Q.
Proof. intros A e P Q H s HP. exact H. Qed.
Lemma tri_bind : forall A B (m : H A) (k : A -> H B) P R Q,
  tri P m R -> (forall a, tri (R a) (k a) Q) -> tri P (hbind m k) Q.
Proof.
  intros A B m k P R Q Hm Hk s HP. unfold hbind. specialize (Hm s HP).
  destruct (m s) as [[s' a]|e]; [apply Hk, Hm|exact Hm].
Qed.
Lemma tri_weak : forall A (m : H A) (P P' : cur -> Prop) (Q Q' : A -> cur -> Prop),
  tri P' m Q' -> (forall c, P c -> P' c) -> (forall a c, Q' a c -> Q a c) -> tri P m Q.
Proof.
  intros A m P P' Q Q' Hm HP HQ s Hs. specialize (Hm s (HP _ Hs)).
  destruct (m s) as [[s' a]|e]; [apply HQ, Hm|exact Hm].
Qed.
Lemma tri_neutral : forall A B (m : H A) (k : A -> H B) P Q,
  neutral m -> (forall a, tri P (k a) Q) -> tri P (hbind m k) Q.
Proof.
  intros A B m k P Q Hm Hk s HP. unfold hbind. specialize (Hm s).
  destruct (m s) as [[s' a]|e]; [apply Hk; rewrite Hm; exact HP|exact Hm].
Qed.
Lemma neutral_tri : forall A (m : H A) (P : cur -> Prop) (Q : A -> cur -> Prop),
  neutral m -> (forall a c, P c -> Q a c) -> tri P m Q.
Proof.
  intros A m P Q Hm HQ s HP. specialize (Hm s).
  destruct (m s) as [[s' a]|e]; [apply HQ; rewrite Hm; exact HP|exact Hm].
Qed.

Lemma neutral_ret : forall A (a : A), neutral (hret a).
Proof. intros A a s. reflexivity. Qed.
Lemma neutral_get : forall A (f : hst -> A), neutral (hget f).
Proof. intros A f s. reflexivity. Qed.
Lemma neutral_set : forall f, (forall s, h_cur (f s) = h_cur s) -> neutral (hset f).
Proof. intros f H s. apply H. Qed.
Lemma neutral_error : forall A e, fine e -> neutral (@herror A e).
Proof. intros A e H s. exact H. Qed.
Lemma neutral_bind : forall A B (m : H A) (k : A -> H B),
  neutral m -> (forall a, neutral (k a)) -> neutral (hbind m k).
Proof.
  intros A B m k Hm Hk s. unfold hbind. specialize (Hm s).
  destruct (m s) as [[s' a]|e]; [|exact Hm].
  specialize (Hk a s'). destruct (k a s') as [[s'' b]|e]; [congruence|exact Hk].
Qed.
Lemma neutral_count : forall c, neutral (count c).
Proof. intros c s. reflexivity. Qed.

Ltac is_fine := split; discriminate.
Ltac neutral_step :=
  match goal with
  | |- neutral (hbind _ _) => apply neutral_bind; [|intros]
  | |- neutral (hret _) => apply neutral_ret
  | |- neutral (hget _) => apply neutral_get
  | |- neutral (count _) => apply neutral_count
  | |- neutral (hset _) => apply neutral_set; intros; reflexivity
  | |- neutral (herror _) => apply neutral_error; is_fine
  | |- neutral (match ?x with _ => _ end) => destruct x eqn:?
  | |- forall _, neutral _ => intros
  end.
Ltac neutral := repeat (cbv zeta; neutral_step).

Lemma neutral_partial : forall x, neutral (partial_insert_h x).
Proof. intros. unfold partial_insert_h. neutral. Qed.
Lemma neutral_partials : forall xs, neutral (partial_insert_all xs).
Proof.
  induction xs; cbn [partial_insert_all]; [apply neutral_ret|].
  apply neutral_bind; [apply neutral_partial|intros; assumption].
Qed.
Lemma neutral_xdecode : forall x m r a b, neutral (x_decode x m r a b).
Proof. intros. unfold x_decode. neutral. Qed.
Lemma neutral_xlookup : forall m r a b, neutral (x_lookup m r a b).
Proof. intros. unfold x_lookup. neutral. Qed.
Lemma neutral_xaddress : forall a b, neutral (x_address a b).
Proof. intros. unfold x_address. neutral. Qed.
Lemma neutral_pages : forall c s, neutral (page_ctr c s).
Proof. intros. unfold page_ctr. neutral. Qed.
Ltac nt := repeat (cbv zeta; first
  [ apply neutral_xdecode | apply neutral_xlookup | apply neutral_xaddress | apply neutral_pages
  | apply neutral_partial | apply neutral_partials | neutral_step ]).
Lemma neutral_insn_side : forall a m, neutral (insn_side a m).
Proof. intros. unfold insn_side. nt. Qed.
Lemma neutral_data_side : forall b l m e r, neutral (data_side b l m e r).
Proof. intros. unfold data_side. nt. Qed.
Lemma neutral_stamp : forall full v, neutral (decode_stamp full v).
Proof.
  intros. unfold decode_stamp. apply neutral_bind; [nt|intros].
  destruct (decode_stamp_rec v) as [[r|]|e] eqn:E; [nt|nt|].
  apply neutral_error. unfold decode_stamp_rec in E.
  repeat match type of E with (if ?b then _ else _) = _ => destruct b end; try discriminate.
  assert (e = HAssert) by congruence. subst. is_fine.
Qed.
Lemma neutral_done8 : forall junk full i p, neutral (done8 junk full i p).
Proof. intros. unfold done8. nt. Qed.
Lemma neutral_done10 : forall junk full i m a d, neutral (done10 junk full i m a d).
Proof.
  intros. unfold done10.
  repeat (cbv zeta; first [ apply neutral_insn_side | apply neutral_data_side | apply neutral_partials | neutral_step ]).
Qed.

Section DECODE.
  Variable qs : Tlb_Model.qsort.
  Variable bytes : list N.
  Variable bad : bool.
  Variable stale : Z -> list N.
  Variable junk : Z -> qrec.
  Variable full : bool.
  Hypothesis stale_len : forall z, length (stale z) = 8%nat.
  Notation Start := (Start bytes bad stale). Notation Mid := (Mid bytes bad stale).
  Notation Got := (Got bytes bad stale). Notation ended := (ended bad).
  Notation fetch := (htm_decode_fetch stale full).

  Definition fetched (k : nat) (w : option N) (c : cur) : Prop :=
    match w with None => Mid k c | Some v => Got k v c end.
  Lemma mid_le : forall k j c, (k <= j)%nat -> Mid k c -> Mid j c.
  Proof. intros k j c L (H1 & H2 & H3 & H4). repeat split; try assumption. lia. Qed.
  Lemma got_le : forall k j v c, (k <= j)%nat -> Got k v c -> Got j v c.
  Proof. intros k j v c L (H1 & H2 & H3). repeat split; try assumption; try lia; apply H3. Qed.
  Lemma start_le : forall k j c, (k <= j)%nat -> Start k c -> Start j c.
  Proof. intros k j c L (H1 & H2 & H3). repeat split; try assumption. lia. Qed.
  Lemma got_mid' : forall k v c, Got k v c -> exists k', k = S k' /\ Mid k' c.
  Proof.
    intros k v c (H1 & H2 & H3 & H4 & H5). exists (k - 1)%nat. split; [lia|].
    repeat split; try assumption; lia.
  Qed.
  Lemma mid_exact : forall k c, Mid k c -> Mid (mu c) c.
  Proof. intros k c (H1 & H2 & H3 & H4). repeat split; try assumption. lia. Qed.

  Lemma fetch_internal_mid : forall k, tri (Mid k) (fetch_internal stale) (fetched k).
  Proof.
    intros k s H. pose proof (fetch_fresh bytes bad stale stale_len k s H) as F.
    destruct (fetch_internal stale s) as [[s' [v|]]|e]; [apply F|apply F|subst; is_fine].
  Qed.
  Lemma fetch_loop_mid : forall f k, (k < f)%nat -> tri (Mid k) (fetch_loop stale full f) (fetched k).
  Proof.
    induction f as [|f IH]; intros k L; [lia|]. cbn [fetch_loop].
    eapply tri_bind; [apply fetch_internal_mid|]. intros [v|]; cbn [fetched].
    - destruct (_ =? _).
      + apply tri_neutral; [apply neutral_stamp|]. intros [|].
        * intros s G. destruct (got_mid' _ _ _ G) as (k' & -> & M).
          assert (L' : (k' < f)%nat) by lia. specialize (IH k' L' s M).
          destruct (fetch_loop stale full f s) as [[s' [w|]]|e]; [|exact (mid_le _ _ _ (Nat.le_succ_diag_r k') IH)|exact IH].
          exact (got_le _ _ _ _ (Nat.le_succ_diag_r k') IH).
        * apply tri_ret. intros c G. apply (got_mid _ _ _ _ _ _ G).
      + apply tri_ret. intros c G. exact G.
    - apply tri_ret. intros c G. exact G.
  Qed.
  Lemma fetch_mid : forall k, tri (Mid k) fetch (fetched k).
  Proof.
    intros k s M. unfold htm_decode_fetch.
    assert (ML : (mu (h_cur s) < fuel_of s)%nat)
      by (unfold mu, fuel_of; destruct (c_eof _), (c_rewind _); lia).
    pose proof (fetch_loop_mid (fuel_of s) (mu (h_cur s)) ML s (mid_exact _ _ M)) as F.
    assert (K : (mu (h_cur s) <= k)%nat) by apply M.
    destruct (fetch_loop _ _ _ s) as [[s' [w|]]|e]; [|exact (mid_le _ _ _ K F)|exact F].
    exact (got_le _ _ _ _ K F).
  Qed.
  Lemma rewind_tri : forall k v, tri (Got k v) (htm_rewind v) (fun _ => Start k).
  Proof.
    intros k v s G. destruct (rewind_got bytes bad stale stale_len k v s G) as (s' & -> & S' & _). exact S'.
  Qed.

  (** Within a record. *)
  Definition P_ok (k : nat) (P : cur -> Prop) : Prop := forall c, P c -> Mid k c.
  Lemma P_mid : forall k, P_ok k (Mid k). Proof. intros k c H. exact H. Qed.
  Lemma P_got : forall k v, P_ok k (Got k v). Proof. intros k v c H. eapply got_mid, H. Qed.
  Lemma fetch_bind : forall B k P (f : option N -> H B) Q, P_ok k P ->
    tri (Mid k) (f None) Q -> (forall v, tri (Got k v) (f (Some v)) Q) -> tri P (hbind fetch f) Q.
  Proof.
    intros B k P f Q HP HN HS. eapply tri_bind.
    - eapply tri_weak; [apply (fetch_mid k)|exact HP|intros a c X; exact X].
    - intros [v|]; [apply HS|apply HN].
  Qed.
  Lemma rewind_bind : forall B k v (f : unit -> H B) Q,
    tri (Start k) (f tt) Q -> tri (Got k v) (hbind (htm_rewind v) f) Q.
  Proof. intros B k v f Q HQ. eapply tri_bind; [apply rewind_tri|]. intros []. exact HQ. Qed.

  Definition post {A} (k : nat) : A -> cur -> Prop := fun _ c => Start k c.
  Ltac weaken := intros ? ?; unfold post in *;
    first [ assumption | eapply mid_start; eassumption | eapply got_start; eassumption ].
  Ltac go k := repeat (cbv zeta; match goal with
    | |- tri _ (hbind fetch _) _ => apply (fetch_bind _ k); [first [apply P_mid | apply P_got]| |intros ?]
    | |- tri _ (hbind (htm_rewind _) _) _ => apply rewind_bind
    | |- tri _ (hbind _ _) _ => apply tri_neutral; [solve [nt]|intros ?]
    | |- tri _ (hret _) _ => apply tri_ret; weaken
    | |- tri _ (herror _) _ => apply tri_error; is_fine
    | |- tri _ (done8 _ _ _ _) _ => eapply neutral_tri; [apply neutral_done8|intros ?; weaken]
    | |- tri _ (done10 _ _ _ _ _ _) _ => eapply neutral_tri; [apply neutral_done10|intros ?; weaken]
    | |- tri _ (match ?x with _ => _ end) _ => destruct x
    end).

  Lemma dra8_tri : forall k i p P, P_ok k P -> tri P (dra8 stale junk full i p) (post k).
  Proof.
    intros k i p P HP. eapply tri_weak; [|exact HP|intros a c X; exact X].
    unfold dra8. go k.
  Qed.
  Lemma dea8_tri : forall k i p P, P_ok k P -> tri P (dea8 stale junk full i p) (post k).
  Proof.
    intros k i p P HP. eapply tri_weak; [|exact HP|intros a c X; exact X].
    unfold dea8. go k; apply dra8_tri; first [apply P_mid | apply P_got].
  Qed.
  Lemma ira8_tri : forall k i sw ir p P, P_ok k P -> tri P (ira8 qs stale junk full i sw ir p) (post k).
  Proof.
    intros k i sw ir p P HP. eapply tri_weak; [|exact HP|intros a c X; exact X].
    unfold ira8. go k; apply dea8_tri; first [apply P_mid | apply P_got].
  Qed.
  Lemma insn8_tri : forall k v, tri (Mid k) (decode_insn8 qs stale junk full v) (post k).
  Proof. intros k v. unfold decode_insn8. go k; apply ira8_tri; first [apply P_mid | apply P_got]. Qed.

  (** POWER10 *)
  Lemma walks_tri : forall n k l, tri (Mid k) (xlate_walks stale full n l) (fun _ => Mid k).
  Proof.
    induction n as [|n IH]; intros k l; cbn [xlate_walks]; [apply tri_ret; auto|].
    apply (fetch_bind _ k); [apply P_mid|apply tri_ret; auto|]. intros v. destruct (bit v 7).
    - apply tri_ret. intros c G. eapply got_mid, G.
    - eapply tri_weak; [apply IH|apply P_got|auto].
  Qed.
  Lemma xlate_tri : forall k v, tri (Mid k) (decode_insn_xlate stale full v) (fun _ => Mid k).
  Proof.
    intros k v. unfold decode_insn_xlate.
    destruct (negb _); [apply tri_ret; auto|]. destruct (negb _); [apply tri_ret; auto|].
    eapply tri_bind; [apply walks_tri|]. intros [ws|]; apply tri_ret; auto.
  Qed.
  Lemma ieara_tri : forall k, tri (Mid k) (decode_ieara stale full) (fun _ => Mid k).
  Proof.
    intros k. unfold decode_ieara. apply (fetch_bind _ k); [apply P_mid|apply tri_ret; auto|]. intros v.
    apply (fetch_bind _ k); [apply P_got|apply tri_ret; auto|]. intros w.
    apply tri_ret. intros c G. eapply got_mid, G.
  Qed.
  Lemma pre_tri : forall f k v a, (k < f)%nat -> tri (Mid k) (pre_loop stale full f v a) (fun _ => Mid k).
  Proof.
    induction f as [|f IH]; intros k v a L; [lia|]. cbn [pre_loop]. cbv zeta.
    assert (NEXT : forall a, tri (Mid k)
      (hbind fetch (fun w => match w with None => hret None | Some v' => pre_loop stale full f v' a end))
      (fun _ => Mid k)).
    { intros b. apply (fetch_bind _ k); [apply P_mid|apply tri_ret; auto|]. intros w s G.
      destruct (got_mid' _ _ _ G) as (k' & -> & M). assert (L' : (k' < f)%nat) by lia.
      specialize (IH k' w b L' s M). destruct (pre_loop _ _ f w b s) as [[s' r]|e]; [|exact IH].
      exact (mid_le _ _ _ (Nat.le_succ_diag_r k') IH). }
    destruct (_ && _).
    - apply tri_neutral; [nt|intros _]. destruct (_ <=? _)%nat; [apply tri_error; is_fine|].
      eapply tri_bind; [apply xlate_tri|]. intros [x|]; [apply NEXT|apply tri_ret; auto].
    - destruct (_ =? REC_TYPE_IEARA).
      + eapply tri_bind; [apply ieara_tri|]. intros [[ea ra]|]; [|apply tri_ret; auto].
        cbv zeta. apply tri_neutral; [nt|intros _]. apply tri_neutral; [nt|intros _]. apply NEXT.
      + destruct (_ =? REC_TYPE_XLATE); [|apply tri_ret; auto].
        apply tri_neutral; [nt|intros _]. destruct (_ <=? _)%nat; [apply tri_error; is_fine|].
        eapply tri_bind; [apply xlate_tri|]. intros [x|]; [apply NEXT|apply tri_ret; auto].
  Qed.
  Lemma data_loop_tri : forall n k e d, tri (Mid k) (data_loop stale full e n d) (post k).
  Proof.
    induction n as [|n IH]; intros k e d; cbn [data_loop]; [apply tri_ret; weaken|].
    go k; eapply tri_weak; try apply IH; try apply P_got; auto.
  Qed.
  Lemma done10_tri : forall k i m a d, tri (Start k) (done10 junk full i m a d) (post k).
  Proof. intros. eapply neutral_tri; [apply neutral_done10|auto]. Qed.
  Lemma data_tri : forall k i P, P_ok k P -> tri P (data_words stale full i) (post k).
  Proof.
    intros k i P HP. eapply tri_weak; [|exact HP|intros a c X; exact X].
    unfold data_words.
    assert (REST : forall p, tri (Mid k)
      (let d := mk_data10 p (j_data i) (j_data i) [] [] in
       if full then data_loop stale full (j_esid i) (j_data i) d
       else match j_data i with
            | O => hret (Some d)
            | S _ =>
              w <-- fetch ;;
              match w with
              | None => hret None
              | Some _ =>
                  w2 <-- fetch ;;
                  match w2 with
                  | None => hret None
                  | Some _ => hret (Some (mk_data10 p 0 0 [] []))
                  end
              end
            end) (post k)).
    { intros p. cbv zeta. destruct full eqn:F; [rewrite <- F; apply data_loop_tri|]. rewrite <- F. go k. }
    apply tri_bind with (R := fun _ => Mid k).
    - destruct (j_prefix i); [|apply tri_ret; auto].
      apply (fetch_bind _ k); [apply P_mid|apply tri_ret; auto|]. intros v.
      apply tri_ret. intros c G. eapply got_mid, G.
    - intros [p|]; [apply REST|apply tri_ret; weaken].
  Qed.
  Lemma insn10_tri : forall k v, tri (Mid k) (decode_insn10 stale junk full v) (post k).
  Proof.
    intros k v. unfold decode_insn10. apply tri_neutral; [nt|intros _]. apply tri_neutral; [nt|intros _].
    apply tri_bind with (R := fun _ => Mid k).
    - intros s M.
      assert (ML : (mu (h_cur s) < fuel_of s)%nat)
        by (unfold mu, fuel_of; destruct (c_eof _), (c_rewind _); lia).
      pose proof (pre_tri (fuel_of s) (mu (h_cur s)) v (mk_pre10 [] None None []) ML s (mid_exact _ _ M)) as F.
      assert (K : (mu (h_cur s) <= k)%nat) by apply M.
      destruct (pre_loop _ _ _ _ _ s) as [[s' r]|e]; [exact (mid_le _ _ _ K F)|exact F].
    - intros [[w a]|]; [|apply tri_ret; weaken]. destruct (decode_info10 w) as [i|]; [|apply tri_ret; weaken].
      apply tri_neutral; [nt|intros _]. apply (fetch_bind _ k); [apply P_mid|apply tri_ret; weaken|]. intros u.
      cbv zeta. eapply tri_bind; [apply (data_tri k); apply P_got|].
      intros [d|]; [apply done10_tri|apply tri_ret; weaken].
  Qed.

  (** The code -2 does not occur. *)
  Definition codes {A} (m : H A) (f : A -> Prop) : Prop :=
    forall s, match m s with HOk (_, a) => f a | HErr _ => True end.
  Lemma codes_bind : forall A B (m : H A) (k : A -> H B) f, (forall a, codes (k a) f) -> codes (hbind m k) f.
  Proof.
    intros A B m k f Hk s. unfold hbind. destruct (m s) as [[s' a]|e]; [apply Hk|exact I].
  Qed.
  Lemma codes_ret : forall A (a : A) (f : A -> Prop), f a -> codes (hret a) f.
  Proof. intros A a f H s. exact H. Qed.
  Lemma codes_error : forall A e (f : A -> Prop), codes (herror e) f.
  Proof. intros A e f s. exact I. Qed.
  Definition plain (z : Z) : Prop := z = 0%Z \/ z = (-1)%Z.
  Ltac cd := repeat (cbv zeta; match goal with
    | |- codes (hbind _ _) _ => apply codes_bind; intros ?
    | |- codes (hret _) _ => apply codes_ret; first [left; reflexivity | right; reflexivity]
    | |- codes (herror _) _ => apply codes_error
    | |- codes (match ?x with _ => _ end) _ => destruct x
    end).
  Lemma done8_codes : forall i p, codes (done8 junk full i p) plain.
  Proof. intros. unfold done8. cd. Qed.
  Lemma dra8_codes : forall i p, codes (dra8 stale junk full i p) plain.
  Proof. intros. unfold dra8. cd; apply done8_codes. Qed.
  Lemma dea8_codes : forall i p, codes (dea8 stale junk full i p) plain.
  Proof. intros. unfold dea8. cd; first [apply dra8_codes | apply done8_codes]. Qed.
  Lemma ira8_codes : forall i sw ir p, codes (ira8 qs stale junk full i sw ir p) plain.
  Proof. intros. unfold ira8. cd; first [apply dea8_codes | apply done8_codes]. Qed.
  Lemma insn8_codes : forall v, codes (decode_insn8 qs stale junk full v) plain.
  Proof. intros. unfold decode_insn8. cd; first [apply ira8_codes | apply done8_codes]. Qed.
  Lemma done10_codes : forall i m a d, codes (done10 junk full i m a d) plain.
  Proof. intros. unfold done10. cd. Qed.
  Lemma insn10_codes : forall v, codes (decode_insn10 stale junk full v) plain.
  Proof. intros. unfold decode_insn10. cd; apply done10_codes. Qed.

  Lemma tri_codes : forall A (m : H A) P Q f, tri P m Q -> codes m f -> tri P m (fun a c => Q a c /\ f a).
  Proof.
    intros A m P Q f HT HC s HP. specialize (HT s HP). specialize (HC s).
    destruct (m s) as [[s' a]|e]; [split; assumption|exact HT].
  Qed.

  (** One record: the bound decreases. *)
  Lemma one_tri : forall k, tri (Start k) (decode_one qs stale junk full)
    (fun b c => if b : bool then exists k', k = S k' /\ Start k' c else ended c /\ Inv bytes bad stale c).
  Proof.
    intros k. unfold decode_one.
    apply tri_bind with (R := fun w c => match w with
      | None => ended c /\ Inv bytes bad stale c | Some _ => exists k', k = S k' /\ Mid k' c end).
    - intros s S0. destruct (c_rewind (h_cur s)) eqn:E.
      + pose proof (fetch_rewound bytes bad stale stale_len k s S0 E) as F.
        destruct (fetch_internal stale s) as [[s' w]|e]; [|subst; is_fine].
        destruct F as (v & k' & -> & -> & M & _). exists k'. split; [reflexivity|exact M].
      + assert (M : Mid k (h_cur s)).
        { destruct S0 as (H1 & H2 & H3). rewrite E in H3. repeat split; assumption. }
        pose proof (fetch_fresh bytes bad stale stale_len k s M) as F.
        destruct (fetch_internal stale s) as [[s' [v|]]|e]; [|split; [apply F|apply F]|subst; is_fine].
        apply (got_mid' k v). apply F.
    - intros [v|].
      + assert (T : forall k', tri (Mid k')
          (if v =? 0 then hret true
           else
             r <-- (if bits v 0 19 =? 0xACEFF then
                      ok <-- decode_stamp full v ;; hret (if ok : bool then 0%Z else (-1)%Z)
                    else if bits v 36 55 =? 0xABCDE then decode_insn8 qs stale junk full v
                    else if bits v 36 55 =? 0xABCDF then decode_insn10 stale junk full v
                    else hret 0%Z) ;;
             _ <-- (if (r =? -2)%Z then htm_rewind v else hret tt) ;;
             if (r <? 0)%Z then
               e <-- hget h_errors ;;
               _ <-- hset (set_errors (e + 1)) ;;
               if (100 <? e)%Z then herror HAssert else hret true
             else
               _ <-- hset (set_errors 0) ;;
               hret true) (fun b c => b = true /\ Start k' c)).
        { intros k'. destruct (v =? 0); [apply tri_ret; intros c M; split; [reflexivity|apply mid_start, M]|].
          apply tri_bind with (R := fun r c => Start k' c /\ plain r).
          - destruct (bits v 0 19 =? 0xACEFF).
            + apply tri_neutral; [apply neutral_stamp|]. intros [|]; apply tri_ret; intros c M;
                (split; [apply mid_start, M|]); [left|right]; reflexivity.
            + destruct (bits v 36 55 =? 0xABCDE); [apply tri_codes; [apply insn8_tri|apply insn8_codes]|].
              destruct (bits v 36 55 =? 0xABCDF); [apply tri_codes; [apply insn10_tri|apply insn10_codes]|].
              apply tri_ret. intros c M. split; [apply mid_start, M|left; reflexivity].
          - intros r. destruct (Z.eqb_spec r (-2)) as [->|_].
            + intros s [_ [X|X]]; discriminate.
            + apply tri_neutral; [nt|intros _]. destruct (r <? 0)%Z.
              * apply tri_neutral; [nt|intros e]. apply tri_neutral; [nt|intros _].
                destruct (100 <? e)%Z; [apply tri_error; is_fine|apply tri_ret; intros c [S0 _]; split; auto].
              * apply tri_neutral; [nt|intros _]. apply tri_ret; intros c [S0 _]; split; auto. }
        intros s (k' & -> & M). specialize (T k' s M).
        match goal with |- match ?x with _ => _ end => destruct x as [[s' b]|e] end; [|exact T].
        destruct T as [-> S0]. exists k'. split; [reflexivity|exact S0].
      + apply tri_ret. auto.
  Qed.
  Lemma loop_tri : forall f k, (k < f)%nat ->
    tri (Start k) (decode_loop qs stale junk full f) (fun _ c => ended c /\ Inv bytes bad stale c).
  Proof.
    induction f as [|f IH]; intros k L; [lia|]. cbn [decode_loop].
    eapply tri_bind; [apply (one_tri k)|]. intros [|].
    - intros s (k' & -> & S0). assert (L' : (k' < f)%nat) by lia. exact (IH k' L' s S0).
    - apply tri_ret. auto.
  Qed.

  Lemma init_start : forall tlb bb, Start (length bytes + 1) (h_cur (init_st bytes bad tlb bb)).
  Proof.
    clear qs junk full stale_len.
    intros tlb bb. cbn [init_st h_cur]. unfold init_cur. split; [|split].
    - exists O. constructor; cbn [c_data c_bad c_eof c_off c_nr c_nr_rewind c_prev c_rewind c_scanned c_sum];
        try reflexivity; try discriminate; intros; apply Nat.le_0_l.
    - unfold mu. cbn [c_data c_eof c_rewind]. lia.
    - cbn. lia.
  Qed.

  (** Number of words of a run that ended. *)
  Definition delivered : nat := if bad then (length bytes / 8)%nat else (total bytes + 1)%nat.
  Lemma ended_nr : forall c, ended c -> Inv bytes bad stale c -> c_nr c = Z.of_nat delivered.
  Proof.
    clear qs junk full stale_len.
    intros c (R & C) (p & I). destruct I. rewrite R in v_nr. rewrite v_nr, Z.sub_0_r. f_equal.
    unfold delivered. pose proof (total_bounds bytes stale) as TB. rewrite v_data in C.
    destruct C as [[B L]|[B [E D]]]; rewrite B.
    - rewrite skipn_length in L. specialize (v_full B).
      apply Nat.div_unique with (length bytes - 8 * p)%nat; lia.
    - rewrite v_eof in E. apply Nat.ltb_lt in E. lia.
  Qed.
End DECODE.
