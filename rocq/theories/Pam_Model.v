(** Model of qtrace-bbv/pam.c, and of the clustering of qtrace-bbv.c. *)
Require Import NArith ZArith List Bool.
Require Import Verif.Word Verif.Matrix_Model.
Import ListNotations.
Local Open Scope N_scope.

Inductive perr :=
| POob     (** access outside an array *)
| PUndef   (** llabs(LLONG_MIN) *)
| PFuel    (** endless loop; proved unreachable *)
| PExit.   (** exit(1) *)
Inductive pres (A : Type) := POk (a : A) | PErr (e : perr).
Arguments POk {A}. Arguments PErr {A}.
Definition p_bind {A B} (x : pres A) (k : A -> pres B) : pres B :=
  match x with POk a => k a | PErr e => PErr e end.
Notation "x <~. m ;; k" := (p_bind m (fun x => k)) (at level 61, m at next level, right associativity).

Definition UMAX : N := 18446744073709551615.

(** A point is a row of the matrix, given by its number; a medoid is a point. *)
Section MATRIX.
  Variable m : matrix.

  Definition coord (row i : N) : pres N :=
    match m_get m row i with MOk v => POk v | MErr _ => PErr POob end.
  (* pam.c:16: llabs of the difference converted to long long *)
  Definition p_llabs (d : N) : pres N :=
    if d =? 9223372036854775808 then PErr PUndef else POk (Z.abs_N (s64 d)).
  (* pam.c:10-19 *)
  Fixpoint dist_loop (n : nat) (i : N) (a b distance : N) : pres N :=
    match n with
    | O => POk distance
    | S n' =>
        x <~. coord a i ;; y <~. coord b i ;; d <~. p_llabs (sub64 x y) ;;
        dist_loop n' (i + 1) a b (add64 distance d)
    end.
  Definition dist (a b : N) : pres N := dist_loop (N.to_nat (m_cols m)) 0 a b 0.

  (* pam.c:25-49: the offset of the nearest medoid and the cost *)
  Fixpoint find_loop (medoids : list N) (i point ret cost : N) : pres (N * N) :=
    match medoids with
    | [] => POk (ret, cost)
    | md :: medoids' =>
        s <~. dist point md ;;
        if s <? cost then find_loop medoids' (i + 1) point i s
        else find_loop medoids' (i + 1) point ret cost
    end.
  Definition find_medoid (medoids : list N) (point : N) : pres (N * N) :=
    find_loop medoids 0 point UMAX UMAX.

  (* pam.c:51-65 *)
  Fixpoint cost_loop (n : nat) (p : N) (medoids : list N) (sum : N) : pres N :=
    match n with
    | O => POk sum
    | S n' =>
        r <~. find_medoid medoids p ;; cost_loop n' (p + 1) medoids (add64 sum (snd r))
    end.
  Definition total_cost (medoids : list N) : pres N := cost_loop (N.to_nat (m_rows m)) 0 medoids 0.

  (* pam.c:67-77 *)
  Fixpoint is_medoid (medoids : list N) (point : N) : pres bool :=
    match medoids with
    | [] => POk false
    | md :: medoids' =>
        s <~. dist point md ;; if s =? 0 then POk true else is_medoid medoids' point
    end.

  (* pam.h:10-18: medoids and current_cost *)
  Record pam := mk_pam { p_medoids : list N; p_cost : N }.

  (* pam.c:79-111; the last component tells whether the function returned *)
  Fixpoint swap_loop (n : nat) (p : N) (md : nat) (s : pam) (progress : bool) : pres (pam * bool * bool) :=
    match n with
    | O => POk (s, progress, false)
    | S n' =>
        is <~. is_medoid (p_medoids s) p ;;
        if is : bool then swap_loop n' (p + 1) md s progress
        else
          let swapped := m_replace md (p_medoids s) p in
          cost <~. total_cost swapped ;;
          let '(s', progress') :=
            if cost <? p_cost s then (mk_pam swapped cost, true) else (s, progress) in
          if p_cost s' =? 0 then POk (s', false, true)
          else swap_loop n' (p + 1) md s' progress'
    end.
  Fixpoint medoid_loop (n : nat) (md : nat) (s : pam) (progress : bool) : pres (pam * bool) :=
    match n with
    | O => POk (s, progress)
    | S n' =>
        r <~. swap_loop (N.to_nat (m_rows m)) 0 md s progress ;;
        let '(s', progress', returned) := r in
        if returned : bool then POk (s', progress') else medoid_loop n' (S md) s' progress'
    end.
  Definition pam_iteration (s : pam) : pres (pam * bool) :=
    medoid_loop (length (p_medoids s)) 0 s false.

  (* pam.c:120-179; None for NULL *)
  Fixpoint init_loop (n : nat) (p : N) (medoids : list N) (wanted : N) : pres (list N) :=
    match n with
    | O => POk medoids
    | S n' =>
        is <~. is_medoid medoids p ;;
        if is : bool then init_loop n' (p + 1) medoids wanted
        else
          let medoids' := medoids ++ [p] in
          if N.of_nat (length medoids') =? wanted then POk medoids'
          else init_loop n' (p + 1) medoids' wanted
    end.
  Definition pam_initialise (wanted : N) : pres (option pam) :=
    if wanted =? 0 then POk None
    else
      medoids <~. init_loop (N.to_nat (m_rows m)) 0 [] wanted ;;
      if N.of_nat (length medoids) <? wanted then POk None
      else
        cost <~. total_cost medoids ;;
        POk (Some (mk_pam medoids cost)).

  (* pam.c:219-223 *)
  Record medoid_data := mk_md { md_found : bool; md_offset : N; md_count : N }.
  Definition md_zero := mk_md false 0 0.
  Fixpoint md_replace (n : nat) (l : list medoid_data) (v : medoid_data) : list medoid_data :=
    match l, n with
    | [], _ => []
    | _ :: l', O => v :: l'
    | x :: l', S n' => x :: md_replace n' l' v
    end.
  Definition md_get (l : list medoid_data) (n : N) : option medoid_data :=
    if n <? N.of_nat (length l) then nth_error l (N.to_nat n) else None.
  (* pam.c:240-252 *)
  Fixpoint report_loop (n : nat) (p : N) (medoids : list N) (tmp : list medoid_data) : pres (list medoid_data) :=
    match n with
    | O => POk tmp
    | S n' =>
        r <~. find_medoid medoids p ;;
        match md_get tmp (fst r) with
        | None => PErr POob
        | Some t =>
            let t' := if (snd r =? 0) && negb (md_found t) then mk_md true p (md_count t) else t in
            let t'' := mk_md (md_found t') (md_offset t') (add64 (md_count t') 1) in
            report_loop n' (p + 1) medoids (md_replace (N.to_nat (fst r)) tmp t'')
        end
    end.
  (* pam.c:225-259: first and last instruction, number of intervals *)
  Definition print_medoids (medoids : list N) (period : N) : pres (list (N * N * N)) :=
    tmp <~. report_loop (N.to_nat (m_rows m)) 0 medoids (map (fun _ => md_zero) medoids) ;;
    POk (map (fun t => (u64 (md_offset t * period),
                        sub64 (u64 (add64 (md_offset t) 1 * period)) 1, md_count t)) tmp).

  (* qtrace-bbv.c:145-148 *)
  Fixpoint pam_loop (fuel : nat) (s : pam) : pres pam :=
    match fuel with
    | O => PErr PFuel
    | S fuel' =>
        r <~. pam_iteration s ;;
        if snd r then pam_loop fuel' (fst r) else POk (fst r)
    end.
  (* qtrace-bbv.c:132-162: the printed cost and medoids *)
  Definition do_one_pam (fuel : nat) (k period : N) : pres (N * list (N * N * N)) :=
    i <~. pam_initialise k ;;
    match i with
    | None => PErr PExit
    | Some s =>
        s' <~. pam_loop fuel s ;;
        r <~. print_medoids (p_medoids s') period ;;
        POk (p_cost s', r)
    end.
  (* qtrace-bbv.c:190-193, n = MAX_K - k + 1 *)
  Fixpoint sweep (fuel n : nat) (k period : N) : pres (list (N * list (N * N * N))) :=
    match n with
    | O => POk []
    | S n' =>
        r <~. do_one_pam fuel k period ;;
        if fst r =? 0 then POk [r]
        else rs <~. sweep fuel n' (k + 1) period ;; POk (r :: rs)
    end.
  (* qtrace-bbv.c:185-194 *)
  Definition cluster (fuel : nat) (my_k period : N) : pres (list (N * list (N * N * N))) :=
    if negb (my_k =? 0) then r <~. do_one_pam fuel my_k period ;; POk [r]
    else sweep fuel 32 1 period.
End MATRIX.
