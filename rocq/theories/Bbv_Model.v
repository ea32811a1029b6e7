(** Model of qtrace-bbv/qtrace-bbv.c: basic-block vectors. *)
Require Import NArith List Bool.
Require Import Verif.Word Verif.Matrix_Model Verif.Pam_Model.
Import ListNotations.
Local Open Scope N_scope.

(* qtrace-bbv.c:39-43 *)
Record obj := mk_obj { o_addr : N; o_count : N; o_id : N }.
(** The fields of a record the tool looks at: insn_addr and branch. *)
Definition rec := (N * bool)%type.

(** The static variables of qtrace-bbv.c:62-70 and parse_qtrace.  The hash
    table (C35) is a list of objects in order of insertion. *)
Record bbv := mk_bbv {
  b_objs : list obj;
  b_next : N;        (* basic_block_id *)
  b_matrix : matrix;
  b_interval : N;
  b_ea : N;
  b_size : N;        (* bb_size *)
  b_insns : N        (* instructions *)
}.

Section RUN.
  Variable junk : nat -> N.
  (** The order in which the hash table is walked: some permutation. *)
  Variable walk : list obj -> list obj.
  (** DEFAULT_PERIODS, DEFAULT_BASIC_BLOCKS and the -p option *)
  Variables rows0 cols0 period : N.

  (* qtrace-bbv.c:88-109; malloc() succeeds *)
  Fixpoint bump (objs : list obj) (addr val : N) : option (list obj) :=
    match objs with
    | [] => None
    | o :: objs' =>
        if o_addr o =? addr then Some (mk_obj addr (add64 (o_count o) val) (o_id o) :: objs')
        else match bump objs' addr val with None => None | Some l => Some (o :: l) end
    end.
  Definition add_basic_block (s : bbv) (addr val : N) : bbv :=
    match bump (b_objs s) addr val with
    | Some objs => mk_bbv objs (b_next s) (b_matrix s) (b_interval s) (b_ea s) (b_size s) (b_insns s)
    | None =>
        mk_bbv (b_objs s ++ [mk_obj addr val (b_next s)]) (u32 (b_next s + 1)) (b_matrix s)
               (b_interval s) (b_ea s) (b_size s) (b_insns s)
    end.

  (* qtrace-bbv.c:123-127: the stores *)
  Fixpoint store (m : matrix) (interval : N) (objs : list obj) : mres matrix :=
    match objs with
    | [] => MOk m
    | o :: objs' =>
        m' <~~ (if o_count o =? 0 then MOk m else m_set m interval (o_id o) (o_count o)) ;;
        store m' interval objs'
    end.
  (* qtrace-bbv.c:111-130 *)
  Definition reset_vector (s : bbv) : mres bbv :=
    let m := b_matrix s in
    m1 <~~ (if m_cols m <=? b_next s then m_resize junk m (m_rows m) (u64 (m_cols m * 2)) else MOk m) ;;
    m2 <~~ (if m_rows m1 <=? b_interval s then m_resize junk m1 (u64 (m_rows m1 * 2)) (m_cols m1) else MOk m1) ;;
    m3 <~~ store m2 (b_interval s) (walk (b_objs s)) ;;
    MOk (mk_bbv (map (fun o => mk_obj (o_addr o) 0 (o_id o)) (b_objs s)) (b_next s) m3
                (add64 (b_interval s) 1) (b_ea s) (b_size s) (b_insns s)).

  Definition MINUS1 : N := 18446744073709551615.
  (* qtrace-bbv.c:214-234: the body of the loop *)
  Definition one (s : bbv) (r : rec) : mres bbv :=
    let ea := if b_ea s =? MINUS1 then fst r else b_ea s in
    let size := u32 (b_size s + 1) in
    let s1 := mk_bbv (b_objs s) (b_next s) (b_matrix s) (b_interval s) ea size (b_insns s) in
    let s2 :=
      if snd r then
        let t := add_basic_block s1 ea size in
        mk_bbv (b_objs t) (b_next t) (b_matrix t) (b_interval t) MINUS1 0 (b_insns t)
      else s1 in
    let insns := add64 (b_insns s2) 1 in
    let s3 := mk_bbv (b_objs s2) (b_next s2) (b_matrix s2) (b_interval s2) (b_ea s2) (b_size s2) insns in
    if period <=? insns then
      s4 <~~ reset_vector s3 ;;
      MOk (mk_bbv (b_objs s4) (b_next s4) (b_matrix s4) (b_interval s4) (b_ea s4) (b_size s4) 0)
    else MOk s3.
  Fixpoint loop (s : bbv) (recs : list rec) : mres bbv :=
    match recs with
    | [] => MOk s
    | r :: recs' => s' <~~ one s r ;; loop s' recs'
    end.
  (* qtrace-bbv.c:78-86, 199-237 *)
  Definition parse (recs : list rec) : mres bbv :=
    m <~~ m_create junk rows0 cols0 ;;
    loop (mk_bbv [] 0 m 0 MINUS1 0 0) recs.
  (* qtrace-bbv.c:164-178 *)
  Definition vectors (coin : N -> N -> bool) (dims : N) (recs : list rec) : mres matrix :=
    s <~~ parse recs ;;
    m <~~ m_resize junk (b_matrix s) (b_interval s) (u32 (b_next s + 1)) ;;
    if dims =? 0 then MOk m else m_projection junk coin m dims.
  (* qtrace-bbv.c:164-197: everything printed without -v *)
  Definition tool (coin : N -> N -> bool) (dims my_k : N) (fuel : nat) (recs : list rec)
      : pres (list (N * list (N * N * N))) :=
    match vectors coin dims recs with
    | MOk m => cluster m fuel my_k period
    | MErr MOob => PErr POob
    | MErr MExit => PErr PExit
    end.
End RUN.

(* qtrace-bbv.c:29-35 *)
Definition DEFAULT_PERIODS : N := 1000.
Definition DEFAULT_BASIC_BLOCKS : N := 10000.
Definition DEFAULT_PERIOD : N := 10000000.
