Require Import NArith List Bool Permutation Sorted Lia ZifyBool ZifyN ZifyNat Arith.
Require Import Verif.Sym_Model Verif.Sym_Spec.
Import ListNotations.
Local Open Scope N_scope.

Lemma nth_error_lt {A} (l : list A) i : (i < length l)%nat -> exists x, nth_error l i = Some x.
Proof.
  intro H. destruct (nth_error l i) eqn:E; [eauto|]. apply nth_error_None in E. lia.
Qed.

Lemma ascending_nth l : ascending l -> forall i j a b, (i <= j)%nat ->
  nth_error l i = Some a -> nth_error l j = Some b -> s_value a <= s_value b.
Proof.
  induction 1 as [|x l Hs IH Hf]; intros i j a b Hij Ha Hb.
  - destruct i; discriminate.
  - destruct i as [|i], j as [|j]; cbn in *; try lia.
    + injection Ha as <-; injection Hb as <-; lia.
    + injection Ha as <-. rewrite Forall_forall in Hf. apply Hf. now apply nth_error_In with j.
    + apply IH with i j; auto; lia.
Qed.

Lemma div2_between l r : (l + 1 < r)%nat -> (l < Nat.div2 (r + l) < r)%nat.
Proof. intro H. rewrite Nat.div2_div. split; [|apply Nat.div_lt_upper_bound; lia].
  apply Nat.lt_le_trans with (S l); [lia|]. apply Nat.div_le_lower_bound; lia. Qed.

Lemma search_ok l addr : ascending l -> forall fuel left right,
  (left < right)%nat -> (right <= length l)%nat -> (right - left <= fuel)%nat ->
  (forall s, nth_error l left = Some s -> s_value s <= addr) ->
  (forall s, nth_error l right = Some s -> addr < s_value s) ->
  exists i s, search l addr fuel left right = Some i /\ nth_error l i = Some s /\
    nearest_below l addr s.
Proof.
  intro Hs. induction fuel as [|fuel IH]; intros left right Hlr Hr Hf Hlo Hhi; [lia|]. cbn [search].
  destruct (Nat.ltb (left + 1) right) eqn:E.
  - apply Nat.ltb_lt in E. assert (Hm := div2_between left right E).
    set (m := Nat.div2 (right + left)) in *.
    destruct (nth_error_lt l m) as [s Es]; [lia|]. rewrite Es.
    destruct (addr <? s_value s) eqn:E1; [|destruct (s_value s <? addr) eqn:E2].
    + apply IH; try lia; auto. intros s' H'. rewrite Es in H'. injection H' as <-. lia.
    + apply IH; try lia; auto. intros s' H'. rewrite Es in H'. injection H' as <-. lia.
    + exists m, s. split; [reflexivity|]. split; [exact Es|].
      split; [now apply nth_error_In with m|]. split; [lia|]. intros; lia.
  - apply Nat.ltb_ge in E. destruct (nth_error_lt l left) as [s Es]; [lia|].
    exists left, s. split; [reflexivity|]. split; [exact Es|].
    split; [now apply nth_error_In with left|]. split; [auto|].
    intros s' Hin Hle. apply In_nth_error in Hin as [j Hj].
    destruct (Nat.le_gt_cases j left) as [H|H].
    + now apply (ascending_nth l Hs j left).
    + destruct (nth_error_lt l right) as [sr Er].
      { apply Nat.le_lt_trans with j; [lia|]. apply nth_error_Some. congruence. }
      assert (Hx := ascending_nth l Hs right j sr s' ltac:(lia) Er Hj). specialize (Hhi _ Er). lia.
Qed.

Lemma symfind_found l addr : ascending l -> enclosed l addr ->
  exists s, symfind l addr = Found s /\ nearest_below l addr s.
Proof.
  intros Hs [(a & Ha & Hal) (b & Hb & Hbl)]. unfold symfind.
  assert (Hlen : (0 < length l)%nat) by (destruct l; [destruct Ha|cbn; lia]).
  destruct (nth_error_lt l 0) as [f Ef]; [lia|]. rewrite Ef.
  destruct (nth_error_lt l (length l - 1)) as [z Ez]; [lia|]. rewrite Ez.
  apply In_nth_error in Ha as [i Hi]. apply In_nth_error in Hb as [j Hj].
  assert (H1 := ascending_nth l Hs 0 i f a ltac:(lia) Ef Hi).
  assert (Hjl : (j < length l)%nat) by (apply nth_error_Some; congruence).
  assert (H2 := ascending_nth l Hs j (length l - 1) b z ltac:(lia) Hj Ez).
  replace ((addr <? s_value f) || (s_value z <? addr)) with false by lia.
  destruct (search_ok l addr Hs (length l) 0 (length l)) as (k & s & E & En & Hn); try lia.
  - intros s E. rewrite Ef in E. injection E as <-. lia.
  - intros s E. exfalso. assert (length l < length l)%nat; [|lia]. apply nth_error_Some. congruence.
  - rewrite E, En. eauto.
Qed.

Lemma symfind_null l addr : ascending l -> ~ enclosed l addr -> symfind l addr = Null.
Proof.
  intros Hs Hn. unfold symfind.
  destruct (nth_error l 0) as [f|] eqn:Ef; [|reflexivity].
  destruct (nth_error l (length l - 1)) as [z|] eqn:Ez; [|reflexivity].
  destruct ((addr <? s_value f) || (s_value z <? addr)) eqn:E; [reflexivity|]. exfalso. apply Hn.
  apply nth_error_In in Ef, Ez. split; [exists f|exists z]; split; auto; lia.
Qed.

Lemma enclosed_dec l addr : enclosed l addr \/ ~ enclosed l addr.
Proof.
  destruct (existsb (fun s => s_value s <=? addr) l) eqn:E1;
  destruct (existsb (fun s => addr <=? s_value s) l) eqn:E2.
  - left. apply existsb_exists in E1 as (a & Ha & Ha'), E2 as (b & Hb & Hb').
    split; [exists a|exists b]; split; auto; lia.
  - right. intros [_ (b & Hb & Hb')].
    assert (existsb (fun s => addr <=? s_value s) l = true); [|congruence].
    apply existsb_exists. exists b. split; auto. lia.
  - right. intros [(b & Hb & Hb') _].
    assert (existsb (fun s => s_value s <=? addr) l = true); [|congruence].
    apply existsb_exists. exists b. split; auto. lia.
  - right. intros [_ (b & Hb & Hb')].
    assert (existsb (fun s => addr <=? s_value s) l = true); [|congruence].
    apply existsb_exists. exists b. split; auto. lia.
Qed.

Lemma strip_in l s : In s (strip l) <-> In s l /\ KERNEL_START <= s_value s.
Proof.
  induction l as [|x l IH]; cbn [strip]; [cbn; tauto|].
  destruct (KERNEL_START <=? s_value x) eqn:E; cbn [In]; rewrite IH; split; intros H.
  - destruct H as [->|H]; [split; [auto|lia]|tauto].
  - tauto.
  - tauto.
  - destruct H as [[->|H] H']; [lia|tauto].
Qed.

Lemma considered_in qsort start normal dyn s : sorts qsort ->
  (In s (build_symtab qsort start normal dyn) <-> considered start normal dyn s).
Proof.
  intro Hq. unfold build_symtab, considered.
  assert (Hi : forall l, In s (qsort l) <-> In s l).
  { intro l. destruct (Hq l) as [Hp _]. split; intro; [apply Permutation_in with (qsort l); [now apply Permutation_sym|]|apply Permutation_in with l]; auto. }
  rewrite Hi. replace (match normal with [] => dyn | _ :: _ => normal end) with
    (if is_nil normal then dyn else normal) by (destruct normal; reflexivity).
  change (2 ^ 64 - 2 ^ 62) with KERNEL_START.
  destruct (start =? KERNEL_START) eqn:E.
  - rewrite strip_in. apply N.eqb_eq in E. tauto.
  - apply N.eqb_neq in E. tauto.
Qed.

Lemma lookup qsort start normal dyn addr : sorts qsort ->
  let syms := build_symtab qsort start normal dyn in
  (forall s, symfind syms addr = Found s ->
     considered start normal dyn s /\ s_value s <= addr /\
     forall s', considered start normal dyn s' -> s_value s' <= addr -> s_value s' <= s_value s) /\
  ((exists s, symfind syms addr = Found s) <->
     (exists s, considered start normal dyn s /\ s_value s <= addr) /\
     (exists s, considered start normal dyn s /\ addr <= s_value s)) /\
  symfind syms addr <> Oob.
Proof.
  intro Hq. cbv zeta.
  assert (Ha : ascending (build_symtab qsort start normal dyn)) by (unfold build_symtab; apply Hq).
  assert (Hin := fun s => considered_in qsort start normal dyn s Hq).
  assert (Hen : enclosed (build_symtab qsort start normal dyn) addr <->
     (exists s, considered start normal dyn s /\ s_value s <= addr) /\
     (exists s, considered start normal dyn s /\ addr <= s_value s)).
  { unfold enclosed. split; intros [(a & H1 & H2) (b & H3 & H4)]; (split; [exists a|exists b]); split; auto;
      now apply Hin. }
  rewrite <- Hen. destruct (enclosed_dec (build_symtab qsort start normal dyn) addr) as [He|He].
  - destruct (symfind_found _ _ Ha He) as (s & E & Hn & Hl & Hg). rewrite E.
    split; [|split; [split; eauto|discriminate]].
    intros s' H. injection H as <-. split; [now apply Hin|]. split; [auto|].
    intros s' Hc. apply Hg. now apply Hin.
  - rewrite (symfind_null _ _ Ha He). split; [discriminate|]. split; [|discriminate].
    split; [intros [s H]; discriminate|]. intro; tauto.
Qed.

(** The tables of ascii.c *)
Lemma nearest_ok ts addr : forall done nearest,
  match nearest with
  | Some t => responsible done addr t
  | None => forall t, In t done -> addr < st_base t
  end ->
  match nearest_table ts addr nearest with
  | Some t => responsible (done ++ ts) addr t
  | None => forall t, In t (done ++ ts) -> addr < st_base t
  end.
Proof.
  induction ts as [|t ts IH]; intros done nearest H; cbn [nearest_table].
  - rewrite app_nil_r. exact H.
  - replace (done ++ t :: ts) with ((done ++ [t]) ++ ts) by (rewrite <- app_assoc; reflexivity).
    destruct (addr <? st_base t) eqn:E.
    + apply IH. destruct nearest as [n|].
      * destruct H as (b & a & -> & Hn & Hb & Ha). exists b, (a ++ [t]).
        rewrite <- app_assoc. split; [reflexivity|]. split; [auto|]. split; [auto|].
        intros t' Hin. apply in_app_or in Hin as [Hin|[<-|[]]]; [auto|lia].
      * intros t' Hin. apply in_app_or in Hin as [Hin|[<-|[]]]; [auto|lia].
    + apply IH. destruct nearest as [n|].
      * destruct H as (b & a & -> & Hn & Hb & Ha). destruct (st_base n <? st_base t) eqn:E2.
        -- exists (b ++ n :: a), []. split; [reflexivity|]. split; [lia|]. split; [|intros t' []].
           intros t' Hin Hle. apply in_app_or in Hin as [Hin|[<-|Hin]].
           ++ specialize (Hb _ Hin Hle). lia.
           ++ lia.
           ++ specialize (Ha _ Hin Hle). lia.
        -- exists b, (a ++ [t]). rewrite <- app_assoc. split; [reflexivity|]. split; [auto|]. split; [auto|].
           intros t' Hin. apply in_app_or in Hin as [Hin|[<-|[]]]; [auto|lia].
      * rewrite N.ltb_irrefl. exists done, []. split; [reflexivity|]. split; [lia|]. split; [|intros t' []].
        intros t' Hin Hle. specialize (H _ Hin). lia.
Qed.

Lemma responsible_unique ts addr t t' : responsible ts addr t -> responsible ts addr t' -> t = t'.
Proof.
  intros (b & a & E & H & Hb & Ha) (b' & a' & E' & H' & Hb' & Ha').
  rewrite E' in E. clear E'. revert b' E Hb'. induction b as [|x b IH]; intros b' E Hb'.
  - destruct b' as [|y b']; cbn in E; [congruence|]. injection E as Ey Ea. subst y a.
    assert (Hy : st_base t < st_base t') by (apply Hb'; [now left|auto]).
    assert (st_base t' <= st_base t) by (apply Ha; [apply in_or_app; right; now left|auto]). lia.
  - destruct b' as [|y b']; cbn in E.
    + injection E as Ey Ea. subst x a'.
      assert (Hy : st_base t' < st_base t) by (apply Hb; [now left|auto]).
      assert (st_base t <= st_base t') by (apply Ha'; [apply in_or_app; right; now left|auto]). lia.
    + injection E as Ey E. subst y. apply IH with b'; auto.
      * intros u Hu. apply Hb. now right.
      * intros u Hu. apply Hb'. now right.
Qed.

Lemma sub64_of a b : a < 2 ^ 64 -> b < 2 ^ 64 -> sub64 a b = (a + 2 ^ 64 - b) mod 2 ^ 64.
Proof. intros. unfold sub64. change MASK64 with (N.ones 64). rewrite N.land_ones. reflexivity. Qed.
Lemma sub64_le a b : a < 2 ^ 64 -> b <= a -> sub64 a b = a - b.
Proof.
  intros Ha Hb. rewrite sub64_of by lia. replace (a + 2 ^ 64 - b) with (a - b + 1 * 2 ^ 64) by lia.
  rewrite N.mod_add by (compute; discriminate). apply N.mod_small. lia.
Qed.
Lemma sub64_lt a b : sub64 a b < 2 ^ 64.
Proof. unfold sub64. change MASK64 with (N.ones 64). rewrite N.land_ones. apply N.mod_lt. compute; discriminate. Qed.

Lemma ascii_lookup ts vma : vma < 2 ^ 64 ->
  (forall t, In t ts -> ascending (st_syms t) /\ (st_offset t <= st_base t)) ->
  match print_address_ascii ts vma with
  | Symbolic v name off =>
      v = vma /\
      exists t s, responsible ts vma t /\ nearest_below (st_syms t) (vma - st_offset t) s /\
        enclosed (st_syms t) (vma - st_offset t) /\
        name = s_name s /\ st_offset t + s_value s + off = vma
  | Plain v =>
      v = vma /\ forall t, responsible ts vma t -> ~ enclosed (st_syms t) (vma - st_offset t)
  | Undefined => False
  end.
Proof.
  intros Hv Hts. unfold print_address_ascii, symfind_ascii.
  assert (Hn := nearest_ok ts vma [] None ltac:(intros t [])). cbn [app] in Hn.
  destruct (nearest_table ts vma None) as [t|].
  - assert (Hr := Hn). destruct Hn as (b & a & E & Hle & _ & _).
    destruct (Hts t) as [Has Hob]; [rewrite E; apply in_or_app; right; now left|].
    assert (Hs : sub64 vma (st_offset t) = vma - st_offset t) by (apply sub64_le; lia). rewrite !Hs.
    destruct (enclosed_dec (st_syms t) (vma - st_offset t)) as [He|He].
    + destruct (symfind_found _ _ Has He) as (s & Es & Hnb). rewrite Es. split; [reflexivity|].
      exists t, s. split; [auto|]. split; [auto|]. split; [auto|]. split; [reflexivity|].
      destruct Hnb as (_ & Hsl & _). rewrite sub64_le by lia. lia.
    + rewrite (symfind_null _ _ Has He). split; [reflexivity|].
      intros t' Hr'. now rewrite (responsible_unique _ _ _ _ Hr' Hr).
  - split; [reflexivity|]. intros t (b & a & E & Hle & _). exfalso.
    specialize (Hn t). rewrite E in Hn. specialize (Hn ltac:(apply in_or_app; right; now left)). lia.
Qed.

Lemma qtdis_text qsort start normal dyn vma : sorts qsort -> vma < 2 ^ 64 ->
  match print_address (build_symtab qsort start normal dyn) vma with
  | Symbolic v name off =>
      v = vma /\ exists s, considered start normal dyn s /\ name = s_name s /\ s_value s + off = vma /\
        forall s', considered start normal dyn s' -> s_value s' <= vma -> off <= vma - s_value s'
  | Plain v =>
      v = vma /\ ((forall s, considered start normal dyn s -> vma < s_value s) \/
                  (forall s, considered start normal dyn s -> s_value s < vma))
  | Undefined => False
  end.
Proof.
  intros Hq Hv. destruct (lookup qsort start normal dyn vma Hq) as (Hf & Hi & Ho).
  unfold print_address. assert (Hin := fun s => considered_in qsort start normal dyn s Hq).
  assert (Ha : ascending (build_symtab qsort start normal dyn)) by (unfold build_symtab; apply Hq).
  destruct (symfind (build_symtab qsort start normal dyn) vma) as [| |s] eqn:E; [congruence| |].
  - split; [reflexivity|]. unfold symfind in E.
    set (l := build_symtab qsort start normal dyn) in *.
    destruct (nth_error l 0) as [f|] eqn:Ef.
    2:{ left. intros s Hs. apply Hin in Hs. destruct l; [destruct Hs|discriminate]. }
    destruct (nth_error l (length l - 1)) as [z|] eqn:Ez.
    2:{ left. intros s Hs. apply Hin in Hs. apply nth_error_None in Ez. destruct l; [destruct Hs|cbn in Ez; lia]. }
    destruct (vma <? s_value f) eqn:E1; [|destruct (s_value z <? vma) eqn:E2].
    + left. intros s Hs. apply Hin in Hs. apply In_nth_error in Hs as [i Hs].
      assert (H := ascending_nth l Ha 0 i f s ltac:(lia) Ef Hs). lia.
    + right. intros s Hs. apply Hin in Hs. apply In_nth_error in Hs as [i Hs].
      assert (i < length l)%nat by (apply nth_error_Some; congruence).
      assert (H' := ascending_nth l Ha i (length l - 1) s z ltac:(lia) Hs Ez). lia.
    + cbn [orb] in E. destruct (search l vma (length l) 0 (length l)); [destruct (nth_error l n)|]; discriminate.
  - split; [reflexivity|]. destruct (Hf s eq_refl) as (Hc & Hle & Hg). exists s.
    rewrite sub64_le by lia. split; [auto|]. split; [auto|]. split; [lia|].
    intros s' Hc' Hl'. specialize (Hg s' Hc' Hl'). lia.
Qed.

(** The memory map *)
Lemma read_maps_ok table ls : forall i ts,
  (forall l, In l ls -> m_exec l = true -> m_file l <> None) ->
  (length ts + length (tables_from table i (exec_lines ls)) <= MAX_SYMS)%nat ->
  read_maps table ls (Nat.eqb i 0) ts = Tables (ts ++ tables_from table i (exec_lines ls)).
Proof.
  induction ls as [|l ls IH]; intros i ts Hf Hm; cbn [read_maps exec_lines filter] in *.
  - cbn. now rewrite app_nil_r.
  - change (filter m_exec ls) with (exec_lines ls) in *. destruct (m_exec l) eqn:E.
    + cbn [tables_from] in *. unfold table_of in *.
      destruct (m_file l) as [f|] eqn:Ef; [|exfalso; apply (Hf l); [now left|auto|auto]].
      unfold syminit. destruct (table f) as [syms|] eqn:Et.
      * cbn [app length] in *. replace (Nat.ltb (length ts) MAX_SYMS) with true by (symmetry; apply Nat.ltb_lt; lia).
        replace (if Nat.eqb i 0 then 0 else m_start l) with (match i with O => 0 | S _ => m_start l end)
          by (destruct i; reflexivity).
        specialize (IH (S i)). cbn [Nat.eqb] in IH. rewrite IH.
        -- rewrite <- app_assoc. reflexivity.
        -- intros l' Hl'. apply Hf. now right.
        -- rewrite app_length. cbn [length]. lia.
      * cbn [app] in *. specialize (IH (S i)). cbn [Nat.eqb] in IH. apply IH; auto.
        intros l' Hl'. apply Hf. now right.
    + apply IH; auto. intros l' Hl'. apply Hf. now right.
Qed.
Lemma maps_ok table ls :
  (forall l, In l ls -> m_exec l = true -> m_file l <> None) ->
  (length (tables_from table 0 (exec_lines ls)) <= 256)%nat ->
  initialise_mem_map table ls = Tables (tables_from table 0 (exec_lines ls)).
Proof. intros H1 H2. exact (read_maps_ok table ls 0 [] H1 H2). Qed.

Lemma overrun_refuted : ~ (forall table ls,
  (forall l, In l ls -> m_exec l = true -> m_file l <> None) ->
  initialise_mem_map table ls <> Overrun).
Proof.
  intro H. apply (H (fun _ => Some []) (repeat (mk_line 1 true (Some 1)) 257)).
  - intros l Hl _. apply repeat_spec in Hl as ->. discriminate.
  - vm_compute. reflexivity.
Qed.
Lemma anonymous_refuted : ~ (forall table ls, initialise_mem_map table ls <> Unset).
Proof. intro H. now apply (H (fun _ => None) [mk_line 1 true None]). Qed.
Lemma past_last_refuted : ~ (forall qsort start normal dyn addr, sorts qsort ->
  (exists s, considered start normal dyn s /\ s_value s <= addr) ->
  symfind (build_symtab qsort start normal dyn) addr <> Null).
Proof.
  intro H.
  assert (Hs : exists qsort, sorts qsort /\ forall l, (length l <= 1)%nat -> qsort l = l).
  { set (ins := fix ins x l := match l with [] => [x] | y :: r => if s_value x <=? s_value y then x :: l else y :: ins x r end).
    assert (Hp : forall x l, Permutation (x :: l) (ins x l)).
    { intros x l. induction l as [|y l IH]; [constructor; constructor|]. cbn. destruct (s_value x <=? s_value y); [apply Permutation_refl|].
      eapply perm_trans; [apply perm_swap|]. now constructor. }
    assert (Ha : forall x l, ascending l -> ascending (ins x l)).
    { intros x l Hl. induction Hl as [|y l Hl IH Hf]; [repeat constructor|]. cbn. destruct (s_value x <=? s_value y) eqn:E.
      - constructor; [now constructor|]. constructor; [lia|]. rewrite Forall_forall in *. intros z Hz. specialize (Hf z Hz). lia.
      - constructor; [exact IH|]. rewrite Forall_forall in *. intros z Hz.
        apply (Permutation_in z (Permutation_sym (Hp x l))) in Hz as [<-|Hz]; [lia|auto]. }
    exists (fold_right ins []). split.
    - intro l. induction l as [|x l [IH1 IH2]]; [split; constructor|]. cbn [fold_right]. split; [|now apply Ha].
      eapply perm_trans; [apply perm_skip, IH1|apply Hp].
    - intros [|x [|y l]] Hl; [reflexivity|reflexivity|cbn in Hl; lia]. }
  destruct Hs as (q & Hq & Hq1).
  apply (H q 0 [mk_sym 100 1] [] 104 Hq).
  - exists (mk_sym 100 1). split; [|cbn; lia]. split; [now left|]. intro E. vm_compute in E. discriminate.
  - unfold build_symtab. cbn [N.eqb KERNEL_START]. rewrite Hq1 by (cbn; lia). reflexivity.
Qed.
(** qsort wants a comparison; this one calls a pair equal in one order and
    different in the other. *)
Lemma symcmp_refuted : ~ (forall a b, symcmp a b = 0 <-> symcmp b a = 0).
Proof. intro H. specialize (H (mk_sym 1 0) (mk_sym 2 0)). cbn in H. destruct H as [H _]. specialize (H eq_refl). discriminate. Qed.
