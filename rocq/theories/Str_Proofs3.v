Require Import NArith List Bool Lia Arith.
From Coq Require Import ZifyN ZifyNat ZifyBool.
Require Import Verif.Str_Model Verif.Str_Spec Verif.Str_Proofs Verif.Str_Proofs2.
Import ListNotations.
Local Open Scope N_scope.

(** ** Whole buffers *)
Lemma groups_step : forall n, (1 <= n)%nat -> Nat.div (n + 4) 5 = S (Nat.div (n - 5 + 4) 5).
Proof.
  intros n H. destruct (le_lt_dec 5 n) as [G|L].
  - replace (n + 4)%nat with (n - 5 + 4 + 1 * 5)%nat by lia. rewrite Nat.div_add by lia. lia.
  - replace (n - 5)%nat with 0%nat by lia. assert (n = 1 \/ n = 2 \/ n = 3 \/ n = 4)%nat as [->|[->|[->| ->]]] by lia; reflexivity.
Qed.
Lemma letters_5 : forall n, (1 <= n <= 5)%nat -> Nat.div (5 * letters_of n) 8 = n /\ (5 * letters_of n - 8 * n < 5)%nat
  /\ (8 * n <= 5 * letters_of n)%nat /\ (letters_of n <= 8)%nat /\ (8 - letters_of n <> 2)%nat /\ (8 - letters_of n <> 5)%nat
  /\ (8 - letters_of n < 8)%nat.
Proof. intros n H. destruct n as [|[|[|[|[|[|n]]]]]]; try lia; cbn [letters_of]; repeat split; try reflexivity; lia. Qed.

Lemma encode_reads : forall n fuel buf, (length buf <= n)%nat -> (length buf <= fuel)%nat -> Forall byte buf ->
  exists s, base32_encode fuel buf (base32_str_size (length buf)) = Some (true, s ++ [0])
    /\ is_base32 s buf /\ reads s buf.
Proof.
  induction n as [|n IH]; intros fuel buf Hn Hf Hb.
  { destruct buf; [|cbn in Hn; lia]. exists []. split; [destruct fuel; reflexivity|]. split; [|constructor].
    exists [], 0%nat, 0. repeat split; try constructor; try reflexivity; try lia. exists 0%nat. reflexivity. }
  destruct buf as [|b0 buf0]; [apply (IH fuel []); [cbn; lia|cbn; lia|constructor]|].
  set (buf := b0 :: buf0) in *.
  assert (L1 : (1 <= length buf)%nat) by (subst buf; cbn; lia).
  destruct fuel as [|fuel]; [lia|].
  assert (E1 : base32_encode (S fuel) buf (base32_str_size (length buf)) =
    (if Nat.ltb (base32_str_size (length buf)) 8 then Some (false, [])
     else match encode_8_chars (firstn 5 buf) with
          | None => None
          | Some l => match base32_encode fuel (skipn 5 buf) (base32_str_size (length buf) - 8) with
                      | Some (r, w) => Some (r, l ++ w)
                      | None => None
                      end
          end)) by reflexivity.
  rewrite E1. clear E1. unfold base32_str_size at 1 2. rewrite groups_step by exact L1.
  destruct (Nat.ltb_spec (S (Nat.div (length buf - 5 + 4) 5) * 8 + 1) 8) as [|_]; [lia|].
  assert (Bf : Forall byte (firstn 5 buf)) by (rewrite <- (firstn_skipn 5 buf) in Hb; apply Forall_app in Hb; apply Hb).
  assert (Bs : Forall byte (skipn 5 buf)) by (rewrite <- (firstn_skipn 5 buf) in Hb; apply Forall_app in Hb; apply Hb).
  assert (Lf : length (firstn 5 buf) = Nat.min 5 (length buf)) by apply firstn_length.
  assert (Ls : length (skipn 5 buf) = (length buf - 5)%nat) by apply skipn_length.
  destruct (encode_8_ok (firstn 5 buf)) as (ds & p & E & Hd & Ld & Lp & Vd); [lia|exact Bf|]. rewrite E.
  replace (S (Nat.div (length buf - 5 + 4) 5) * 8 + 1 - 8)%nat with (base32_str_size (length (skipn 5 buf)))
    by (unfold base32_str_size; rewrite Ls; lia).
  destruct (IH fuel (skipn 5 buf)) as (s & Es & Hs & Rs); [lia|lia|exact Bs|]. rewrite Es.
  exists (List.map letter ds ++ repeat equals p ++ s). split; [rewrite !app_assoc; reflexivity|].
  destruct (letters_5 (length (firstn 5 buf))) as (K1 & K2 & K3 & K4 & K5 & K6 & K7); [lia|].
  split.
  - destruct (le_lt_dec (length buf) 5) as [Hle|Hgt].
    + assert (Z : skipn 5 buf = []) by (apply length_zero_iff_nil; lia).
      assert (W : firstn 5 buf = buf) by (apply firstn_all2; lia). rewrite W in *.
      assert (S0 : s = []).
      { rewrite Z in Rs. destruct Hs as (ds' & p' & k' & -> & _ & L' & K' & _ & (m & Hm) & Hp').
        rewrite Z in L'. cbn [length] in L'. assert (length ds' = 0)%nat by lia.
        assert (p' = 0)%nat by lia. destruct ds'; [|discriminate]. subst p'. reflexivity. }
      subst s. exists ds, p, (N.of_nat (5 * length ds - 8 * length buf)).
      rewrite app_nil_r. repeat split; try assumption; try lia. exists 1%nat. lia.
    + assert (L5 : length (firstn 5 buf) = 5%nat) by lia. rewrite L5 in *. cbn [letters_of] in *.
      assert (p = 0)%nat as -> by lia. cbn [repeat app].
      destruct Hs as (ds' & p' & k' & -> & D' & L' & K' & V' & (m & Hm) & Hp').
      exists (ds ++ ds'), p', k'. rewrite map_app, <- app_assoc. split; [reflexivity|].
      split; [apply Forall_app; split; assumption|]. rewrite app_length. split; [rewrite Ls in L'; lia|]. split; [exact K'|].
      split; [|split; [exists (S m); lia|exact Hp']].
      rewrite value_app, V', Vd.
      rewrite <- (firstn_skipn 5 buf) at 3. rewrite value_app, pow_5, pow_8.
      replace (5 * length ds - 8 * 5)%nat with 0%nat by lia. rewrite N.pow_0_r, N.mul_1_r.
      replace (5 * N.of_nat (length ds')) with (8 * N.of_nat (length (skipn 5 buf)) + k') by lia.
      rewrite N.pow_add_r. lia.
  - rewrite <- (firstn_skipn 5 buf) at 1. rewrite Ld in *.
    apply reads_group; try assumption; try lia. rewrite Ld. rewrite Vd. symmetry. apply N.div_mul. apply N.pow_nonzero. lia.
Qed.
Lemma encode_ok : forall buf, Forall byte buf ->
  exists s, base32_encode (length buf) buf (base32_str_size (length buf)) = Some (true, s ++ [0]) /\ is_base32 s buf
    /\ length s = (base32_str_size (length buf) - 1)%nat.
Proof.
  intros buf Hb. destruct (encode_reads (length buf) (length buf) buf) as (s & E & H & _); [lia|lia|exact Hb|].
  exists s. split; [exact E|]. split; [exact H|].
  destruct H as (ds & p & k & -> & _ & L & K & _ & (m & Hm) & Hp). rewrite app_length, map_length, repeat_length, Hm.
  unfold base32_str_size. assert (M : Nat.div (length buf + 4) 5 = m); [|lia].
  symmetry. apply (Nat.div_unique _ 5 m (length buf + 4 - 5 * m)); lia.
Qed.
Lemma trailing_pads : forall p l limit, (p <= limit)%nat -> (match l with c :: _ => c <> pad | [] => True end) ->
  trailing (repeat equals p ++ l) limit = p.
Proof.
  induction p as [|p IH]; intros l limit Hp Hl.
  - cbn [repeat app]. destruct l as [|c l]; [destruct limit; reflexivity|]. destruct limit; [reflexivity|]. cbn [trailing].
    destruct (N.eqb_spec c pad); [contradiction|reflexivity].
  - destruct limit as [|limit]; [lia|]. cbn [repeat app trailing]. change (equals =? pad) with true. cbv iota.
    rewrite IH; [reflexivity|lia|exact Hl].
Qed.
Lemma letter_not_pad : forall d, d < 32 -> letter d <> pad.
Proof. intros d H. unfold letter, pad. destruct (d <? 26) eqn:E; lia. Qed.
Lemma rev_repeat : forall A (a : A) n, rev (repeat a n) = repeat a n.
Proof.
  induction n as [|n IH]; [reflexivity|]. cbn [repeat rev]. rewrite IH. clear.
  induction n as [|n IH]; [reflexivity|]. cbn [repeat app]. rewrite IH. reflexivity.
Qed.
Lemma data_size_ok : forall s buf, is_base32 s buf -> base32_data_size s = length buf.
Proof.
  intros s buf (ds & p & k & -> & D & L & K & _ & (m & Hm) & Hp). unfold base32_data_size. cbv zeta.
  rewrite rev_app_distr, rev_repeat, app_length, map_length, repeat_length, Hm.
  rewrite trailing_pads.
  - assert (M : Nat.div (8 * m + 7) 8 = m) by (symmetry; apply (Nat.div_unique _ 8 m 7); lia).
    rewrite M. set (q := Nat.div (p * 5 + 7) 8).
    assert (Q : (8 * q <= p * 5 + 7 < 8 * q + 8)%nat).
    { split; [apply Nat.mul_div_le; lia|]. pose proof (Nat.mul_succ_div_gt (p * 5 + 7) 8 ltac:(lia)) as H. fold q in H. lia. }
    lia.
  - lia.
  - destruct (rev (List.map letter ds)) as [|c l] eqn:E; [exact I|].
    assert (In c (List.map letter ds)) as Hc by (apply in_rev; rewrite E; left; reflexivity).
    apply in_map_iff in Hc as (d & <- & Hd). apply letter_not_pad. rewrite Forall_forall in D. apply D. exact Hd.
Qed.
Lemma base32_round : forall buf s, Forall byte buf ->
  base32_encode (length buf) buf (base32_str_size (length buf)) = Some (true, s) ->
  base32_decode (length (removelast s)) (removelast s) (base32_data_size (removelast s)) = (true, buf).
Proof.
  intros buf s Hb E. destruct (encode_reads (length buf) (length buf) buf) as (t & Et & H & R); [lia|lia|exact Hb|].
  rewrite Et in E. injection E as <-. rewrite removelast_last, (data_size_ok t buf H). apply decode_reads; [exact R|lia].
Qed.
Lemma encode_refuses : forall fuel buf destsize, (length buf <= fuel)%nat -> Forall byte buf ->
  destsize <> base32_str_size (length buf) ->
  exists w, base32_encode fuel buf destsize = Some (false, w) /\ (length w <= destsize)%nat.
Proof.
  induction fuel as [|fuel IH]; intros buf destsize Hf Hb Hd.
  - destruct buf; [|cbn in Hf; lia]. exists []. cbn [base32_encode]. change (base32_str_size (length (@nil N))) with 1%nat in Hd.
    destruct (Nat.eqb_spec destsize 1); [contradiction|]. split; [reflexivity|cbn; lia].
  - destruct buf as [|b0 buf0].
    + exists []. cbn [base32_encode]. change (base32_str_size (length (@nil N))) with 1%nat in Hd.
      destruct (Nat.eqb_spec destsize 1); [contradiction|]. split; [reflexivity|cbn; lia].
    + set (buf := b0 :: buf0) in *. assert (L1 : (1 <= length buf)%nat) by (subst buf; cbn; lia).
      assert (E1 : base32_encode (S fuel) buf destsize =
        (if Nat.ltb destsize 8 then Some (false, [])
         else match encode_8_chars (firstn 5 buf) with
              | None => None
              | Some l => match base32_encode fuel (skipn 5 buf) (destsize - 8) with
                          | Some (r, w) => Some (r, l ++ w)
                          | None => None
                          end
              end)) by reflexivity.
      rewrite E1. clear E1. destruct (Nat.ltb_spec destsize 8); [exists []; split; [reflexivity|cbn; lia]|].
      assert (Bf : Forall byte (firstn 5 buf)) by (rewrite <- (firstn_skipn 5 buf) in Hb; apply Forall_app in Hb; apply Hb).
      assert (Bs : Forall byte (skipn 5 buf)) by (rewrite <- (firstn_skipn 5 buf) in Hb; apply Forall_app in Hb; apply Hb).
      assert (Lf : length (firstn 5 buf) = Nat.min 5 (length buf)) by apply firstn_length.
      assert (Ls : length (skipn 5 buf) = (length buf - 5)%nat) by apply skipn_length.
      destruct (encode_8_ok (firstn 5 buf)) as (ds & p & E & _ & _ & Lp & _); [lia|exact Bf|]. rewrite E.
      destruct (IH (skipn 5 buf) (destsize - 8)%nat) as (w & Ew & Lw); [lia|exact Bs| |].
      * intros Q. apply Hd. unfold base32_str_size in *. rewrite Ls in Q. rewrite groups_step by exact L1. lia.
      * rewrite Ew. eexists. split; [reflexivity|]. rewrite !app_length, map_length, repeat_length. lia.
Qed.

(** ** strcount *)
Lemma prefix_iff : forall n s, prefix n s = true <-> firstn (length n) s = n.
Proof.
  induction n as [|a n IH]; intros s; [cbn; split; reflexivity|].
  destruct s as [|b s]; cbn [prefix length firstn]; [split; discriminate|].
  rewrite andb_true_iff, N.eqb_eq, IH. split; [intros [-> ->]; reflexivity|intros [= -> ->]; auto].
Qed.
Lemma strstr_spec : forall s needle, match strstr s needle with
  | Some h => exists i, h = skipn i s /\ occurs_at needle s i /\ forall j, (j < i)%nat -> ~ occurs_at needle s j
  | None => forall j, needle <> [] -> ~ occurs_at needle s j
  end.
Proof.
  induction s as [|c s IH]; intros needle; cbn [strstr]; destruct (prefix needle _) eqn:E.
  - exists 0%nat. split; [reflexivity|]. split; [apply prefix_iff; exact E|lia].
  - intros j Hn H. unfold occurs_at in H. rewrite skipn_nil, firstn_nil in H. congruence.
  - exists 0%nat. split; [reflexivity|]. split; [apply prefix_iff; exact E|lia].
  - assert (N0 : ~ occurs_at needle (c :: s) 0).
    { intros H. apply prefix_iff in H. cbn [skipn] in H. congruence. }
    specialize (IH needle). destruct (strstr s needle) as [h|].
    + destruct IH as (i & -> & Ho & Hn). exists (S i). split; [reflexivity|]. split; [exact Ho|].
      intros [|j] Hj; [exact N0|]. apply Hn. lia.
    + intros [|j] Hne; [exact N0|]. apply IH. exact Hne.
Qed.
Lemma apart_weaken : forall n l a b, (b <= a)%nat -> apart n a l -> apart n b l.
Proof. intros n [|i l] a b Hab H; cbn in *; [exact I|]. destruct H. split; [lia|assumption]. Qed.
Lemma apart_shift : forall n l a k, apart n a l -> apart n (a + k) (List.map (fun x => x + k)%nat l).
Proof.
  induction l as [|i l IH]; intros a k H; cbn in *; [exact I|]. destruct H as [H1 H2]. split; [lia|].
  replace (i + k + n)%nat with (i + n + k)%nat by lia. apply IH. exact H2.
Qed.
Lemma apart_unshift : forall n l a k, (k <= a)%nat -> apart n a l -> apart n (a - k) (List.map (fun x => x - k)%nat l).
Proof.
  induction l as [|i l IH]; intros a k Hk H; cbn in *; [exact I|]. destruct H as [H1 H2]. split; [lia|].
  replace (i - k + n)%nat with (i + n - k)%nat by lia. apply IH; [lia|exact H2].
Qed.
Lemma apart_ge : forall n l a x, apart n a l -> In x l -> (a <= x)%nat.
Proof. induction l as [|i l IH]; intros a x H Hx; [destruct Hx|]. destruct H as [H1 H2]. destruct Hx as [->|Hx]; [exact H1|].
  specialize (IH _ _ H2 Hx). lia. Qed.
Lemma skipn_skipn' : forall (l : list N) a b, skipn a (skipn b l) = skipn (b + a) l.
Proof. intros l a b. revert l. induction b as [|b IH]; intros l; [reflexivity|]. destruct l; [rewrite !skipn_nil; reflexivity|]. cbn. apply IH. Qed.
Lemma strcount_ok : forall fuel s needle, needle <> [] -> (length s <= fuel)%nat ->
  exists ps, strcount fuel s needle = Some (length ps) /\ apart (length needle) 0 ps /\ Forall (occurs_at needle s) ps
    /\ forall qs, apart (length needle) 0 qs -> Forall (occurs_at needle s) qs -> (length qs <= length ps)%nat.
Proof.
  induction fuel as [|fuel IH]; intros s needle Hn Hf; cbn [strcount].
  all: pose proof (strstr_spec s needle) as Hs; destruct (strstr s needle) as [h|].
  - destruct Hs as (i & -> & Ho & _). exfalso. destruct s; [|cbn in Hf; lia]. unfold occurs_at in Ho.
    rewrite skipn_nil, firstn_nil in Ho. congruence.
  - exists []. repeat split; try constructor. intros [|q qs] _ Hq; [cbn; lia|]. inversion_clear Hq as [|? ? Hq1 _].
    destruct (Hs q Hn Hq1).
  - destruct Hs as (i & -> & Ho & Hno). rewrite skipn_skipn'. set (k := (i + length needle)%nat).
    assert (Li : (i < length s)%nat).
    { destruct (le_lt_dec (length s) i) as [G|]; [|assumption]. unfold occurs_at in Ho. rewrite skipn_all2 in Ho by exact G.
      rewrite firstn_nil in Ho. congruence. }
    assert (Ln : (0 < length needle)%nat) by (destruct needle; [congruence|cbn; lia]).
    destruct (IH (skipn k s) needle Hn) as (ps & E & Ha & Hoc & Hm); [rewrite skipn_length; unfold k; lia|].
    rewrite E. cbn [option_map]. exists (i :: List.map (fun x => x + k)%nat ps). cbn [length]. rewrite map_length.
    split; [reflexivity|]. split; [|split].
    + cbn [apart]. split; [lia|]. apply (apart_shift _ _ 0 k). exact Ha.
    + constructor; [exact Ho|]. apply Forall_forall. intros x Hx. apply in_map_iff in Hx as (y & <- & Hy).
      rewrite Forall_forall in Hoc. specialize (Hoc y Hy). unfold occurs_at in *. rewrite skipn_skipn' in Hoc.
      rewrite Nat.add_comm. exact Hoc.
    + intros [|q qs] Hq Hqo; [cbn; lia|]. cbn [length apart] in *. destruct Hq as [_ Hq].
      inversion_clear Hqo as [|? ? Hq1 Hq2].
      assert (Q : (i <= q)%nat) by (destruct (le_lt_dec i q) as [|G]; [assumption|destruct (Hno q G Hq1)]).
      apply (apart_weaken _ _ _ k) in Hq; [|unfold k; lia].
      assert (G : (length (List.map (fun x => x - k) qs) <= length ps)%nat).
      { apply Hm.
        - replace 0%nat with (k - k)%nat by lia. apply apart_unshift; [lia|exact Hq].
        - apply Forall_forall. intros x Hx. apply in_map_iff in Hx as (y & <- & Hy). rewrite Forall_forall in Hq2.
          specialize (Hq2 y Hy). pose proof (apart_ge _ _ _ _ Hq Hy) as Gy. unfold occurs_at in *. rewrite skipn_skipn'.
          replace (k + (y - k))%nat with y by lia. exact Hq2. }
      rewrite map_length in G. lia.
  - exists []. repeat split; try constructor. intros [|q qs] _ Hq; [cbn; lia|]. inversion_clear Hq as [|? ? Hq1 _].
    destruct (Hs q Hn Hq1).
Qed.
Lemma strcount_empty : forall fuel s, strcount fuel s [] = None.
Proof.
  induction fuel as [|fuel IH]; intros s; destruct s; cbn [strcount strstr prefix length skipn]; try reflexivity; rewrite IH; reflexivity.
Qed.
