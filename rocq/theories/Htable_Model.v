(** Model of qtrace-bbv/ccan/htable/htable.c: the hash table. *)
Require Import NArith ZArith List Bool.
Require Import Verif.Word.
Import ListNotations.
Local Open Scope N_scope.

(** ** State *)
(* qtrace-bbv/ccan/htable/htable.h:15-24, with uintptr_t and size_t of 64
   bits.  [h_inline]: the table pointer is the address of perfect_bit, as
   after htable_init; otherwise [h_table] is the allocated table. *)
Record ht := mk_ht {
  h_bits : N; h_elems : N; h_deleted : N; h_max : N; h_maxd : N;
  h_cmask : N; h_cbits : N; h_pbit : N; h_inline : bool; h_table : list N }.

Inductive hterr :=
| HtOob     (** access outside the table *)
| HtBig     (** 1 << 31 in int *)
| HtAssert
| HtFuel.   (** endless loop; proved unreachable *)
Inductive htres (A : Type) := HtOk (a : A) | HtErr (e : hterr).
Arguments HtOk {A}. Arguments HtErr {A}.
Definition ht_bind {A B} (m : htres A) (k : A -> htres B) : htres B :=
  match m with HtOk a => k a | HtErr e => HtErr e end.
Notation "x <~ m ;; k" := (ht_bind m (fun x => k)) (at level 61, m at next level, right associativity).

Definition ones64 : N := 18446744073709551615.
(* qtrace-bbv/ccan/htable/htable.h:42-43, htable.c:46-54 *)
Definition ht_init : ht := mk_ht 0 0 0 0 0 ones64 0 0 true [].

Definition set_table (t : list N) (h : ht) : ht :=
  mk_ht (h_bits h) (h_elems h) (h_deleted h) (h_max h) (h_maxd h) (h_cmask h) (h_cbits h)
        (h_pbit h) (h_inline h) t.

(** ** Table access *)
Fixpoint replace_nth (n : nat) (l : list N) (v : N) : list N :=
  match l, n with
  | [], _ => []
  | _ :: l', O => v :: l'
  | x :: l', S n' => x :: replace_nth n' l' v
  end.
Definition slots (h : ht) : list N := if h_inline h then [h_pbit h] else h_table h.
Definition load (h : ht) (i : N) : htres N :=
  match nth_error (slots h) (N.to_nat i) with Some e => HtOk e | None => HtErr HtOob end.
(** Nothing is stored in the word inside the structure. *)
Definition store (h : ht) (i v : N) : htres ht :=
  if h_inline h then HtErr HtOob
  else if i <? N.of_nat (length (h_table h))
  then HtOk (set_table (replace_nth (N.to_nat i) (h_table h) v) h)
  else HtErr HtOob.

(* htable.c:10-44 *)
Definition DELETED : N := 1.
Definition extra (h : ht) (e : N) : N := N.land e (h_cmask h).
Definition raw (h : ht) (e : N) : N := N.lor (N.ldiff e (h_cmask h)) (h_cbits h).
Definition make_hval (h : ht) (p bits : N) : N := N.lor (N.ldiff p (h_cmask h)) bits.
Definition valid (e : N) : bool := DELETED <? e.
Definition hash_bits (h : ht) (hash : N) : N :=
  N.ldiff (N.land (N.lxor hash (N.shiftr hash (h_bits h))) (h_cmask h)) (h_pbit h).

(* htable.c:104-107; the loops at 119, 135, 178 use the same mask *)
Definition mask (h : ht) : N := 2 ^ h_bits h - 1.
Definition bucket (h : ht) (hash : N) : N := N.land hash (mask h).
Definition next (h : ht) (i : N) : N := N.land (i + 1) (mask h).
Definition size (h : ht) : N := 2 ^ h_bits h.
Definition fuel_of (h : ht) : nat := S (length (slots h)).

(** ** Lookup *)
(* htable.c:109-123: the offset and the pointer *)
Fixpoint val_loop (fuel : nat) (h : ht) (off h2 perfect : N) : htres (option (N * N)) :=
  match fuel with
  | O => HtErr HtFuel
  | S fuel' =>
      e <~ load h off ;;
      if e =? 0 then HtOk None
      else if negb (e =? DELETED) && (extra h e =? h2) then HtOk (Some (off, raw h e))
      else val_loop fuel' h (next h off) (N.ldiff h2 perfect) perfect
  end.
Definition val (h : ht) (off hash perfect : N) : htres (option (N * N)) :=
  val_loop (fuel_of h) h off (N.lor (hash_bits h hash) perfect) perfect.
(* htable.c:125-137 *)
Definition firstval (h : ht) (hash : N) : htres (option (N * N)) :=
  val h (bucket h hash) hash (h_pbit h).
Definition nextval (h : ht) (off hash : N) : htres (option (N * N)) := val h (next h off) hash 0.

(* htable.h:167-180 and the loop of htable.c:308-313: first candidate that
   satisfies [cmp] *)
Fixpoint find_loop (fuel : nat) (h : ht) (hash : N) (cmp : N -> bool) (c : option (N * N))
    : htres (option (N * N)) :=
  match c with
  | None => HtOk None
  | Some (off, p) =>
      if cmp p then HtOk c
      else match fuel with
           | O => HtErr HtFuel
           | S fuel' => c' <~ nextval h off hash ;; find_loop fuel' h hash cmp c'
           end
  end.
Definition find_val (h : ht) (hash : N) (cmp : N -> bool) : htres (option (N * N)) :=
  c <~ firstval h hash ;; find_loop (fuel_of h) h hash cmp c.
Definition ht_get (h : ht) (hash : N) (cmp : N -> bool) : htres (option N) :=
  c <~ find_val h hash cmp ;; HtOk (match c with Some (_, p) => Some p | None => None end).

(* htable.c:139-155: all values of htable_first, htable_next *)
Fixpoint iter_loop (fuel : nat) (h : ht) (i : N) : htres (list N) :=
  if i <? size h then
    match fuel with
    | O => HtErr HtFuel
    | S fuel' =>
        e <~ load h i ;;
        r <~ iter_loop fuel' h (i + 1) ;;
        HtOk (if valid e then raw h e :: r else r)
    end
  else HtOk [].
Definition iterate (h : ht) : htres (list N) := iter_loop (fuel_of h) h 0.

(** ** Changes *)
(* htable.c:168-181 *)
Fixpoint add_loop (fuel : nat) (h : ht) (p hash i perfect : N) : htres ht :=
  match fuel with
  | O => HtErr HtFuel
  | S fuel' =>
      e <~ load h i ;;
      if valid e then add_loop fuel' h p hash (next h i) 0
      else store h i (make_hval h p (N.lor (hash_bits h hash) perfect))
  end.
Definition add_raw (h : ht) (p hash : N) : htres ht :=
  add_loop (fuel_of h) h p hash (bucket h hash) (h_pbit h).

(* htable.c:56-61 *)
Definition max_of (bits : N) : N := N.shiftl 3 bits / 4.
Definition maxd_of (bits : N) : N := N.shiftl 9 bits / 10.
(* htable.c:200-205 *)
Fixpoint lowest (n : nat) (m i : N) : N :=
  match n with
  | O => 0
  | S n' => if N.testbit m i then 2 ^ i else lowest n' m (i + 1)
  end.

Section REHASH.
  (** ht->rehash with ht->priv; the result is size_t *)
  Variable rehash : N -> N.
  Definition rh (p : N) : N := u64 (rehash p).

  (* htable.c:209-214 *)
  Fixpoint readd (h : ht) (old : list N) : htres ht :=
    match old with
    | [] => HtOk h
    | e :: old' =>
        h' <~ (if valid e then add_raw h (raw h e) (rh (raw h e)) else HtOk h) ;;
        readd h' old'
    end.
  (* htable.c:183-219; [ok]: calloc succeeds *)
  Definition double_table (ok : bool) (h : ht) : htres (ht * bool) :=
    if 31 <=? h_bits h + 1 then HtErr HtBig
    else if negb ok then HtOk (h, false)
    else
      let bits := h_bits h + 1 in
      let pbit := if (h_pbit h =? 0) && negb (h_cmask h =? 0) then lowest 64 (h_cmask h) 0
                  else h_pbit h in
      let h' := mk_ht bits (h_elems h) (h_deleted h) (max_of bits) (maxd_of bits) (h_cmask h)
                      (h_cbits h) pbit false (repeat 0 (N.to_nat (2 ^ bits))) in
      h'' <~ (if h_inline h then HtOk h' else readd h' (h_table h)) ;;
      HtOk (mk_ht (h_bits h'') (h_elems h'') 0 (h_max h'') (h_maxd h'') (h_cmask h'')
                  (h_cbits h'') (h_pbit h'') (h_inline h'') (h_table h''), true).

  (* htable.c:227 *)
  Fixpoint first_empty (fuel : nat) (h : ht) (i : N) : htres N :=
    match fuel with
    | O => HtErr HtFuel
    | S fuel' => e <~ load h i ;; if e =? 0 then HtOk i else first_empty fuel' h (i + 1)
    end.
  (* htable.c:229-241 *)
  Fixpoint rehash_loop (n : nat) (h : ht) (start i : N) : htres ht :=
    match n with
    | O => HtOk h
    | S n' =>
        let k := N.land (i + start) (mask h) in
        e <~ load h k ;;
        h' <~ (if e =? 0 then HtOk h
               else if e =? DELETED then store h k 0
               else if N.land e (h_pbit h) =? 0 then
                 h1 <~ store h k 0 ;;
                 add_raw h1 (raw h e) (rh (raw h e))
               else HtOk h) ;;
        rehash_loop n' h' start (i + 1)
    end.
  (* htable.c:221-243 *)
  Definition rehash_table (h : ht) : htres ht :=
    start <~ first_empty (fuel_of h) h 0 ;;
    h' <~ rehash_loop (N.to_nat (size h)) h start 0 ;;
    HtOk (mk_ht (h_bits h') (h_elems h') 0 (h_max h') (h_maxd h') (h_cmask h') (h_cbits h')
                (h_pbit h') (h_inline h') (h_table h')).

  (* htable.c:256-259: from 63 down to 1, else 0 *)
  Fixpoint top_bit (n : nat) (p : N) : N :=
    match n with
    | O => 0
    | S n' => if N.testbit p (N.of_nat n) then N.of_nat n else top_bit n' p
    end.
  (* htable.c:245-286 *)
  Definition update_common (h : ht) (p : N) : htres ht :=
    if h_elems h =? 0 then
      let m := N.ldiff ones64 (2 ^ top_bit 63 p) in
      HtOk (mk_ht (h_bits h) (h_elems h) (h_deleted h) (h_max h) (h_maxd h) m (N.land p m) 1
                  (h_inline h) (h_table h))
    else if h_inline h then HtErr HtOob
    else
      let maskdiff := N.lxor (h_cbits h) (N.land p (h_cmask h)) in
      let bitsdiff := N.land (h_cbits h) maskdiff in
      HtOk (mk_ht (h_bits h) (h_elems h) (h_deleted h) (h_max h) (h_maxd h)
              (N.ldiff (h_cmask h) maskdiff) (N.ldiff (h_cbits h) maskdiff)
              (N.ldiff (h_pbit h) maskdiff) false
              (map (fun e => if valid e then N.lor (N.ldiff e maskdiff) bitsdiff else e) (h_table h))).

  (* htable.c:288-301 *)
  Definition ht_add (ok : bool) (h : ht) (hash p : N) : htres (ht * bool) :=
    d <~ (if h_max h <? h_elems h + 1 then double_table ok h else HtOk (h, true)) ;;
    let '(h1, grown) := d in
    if negb grown then HtOk (h1, false)
    else
      h2 <~ (if h_maxd h1 <? h_elems h1 + 1 + h_deleted h1 then rehash_table h1 else HtOk h1) ;;
      if p =? 0 then HtErr HtAssert
      else
        h3 <~ (if N.land p (h_cmask h2) =? h_cbits h2 then HtOk h2 else update_common h2 p) ;;
        h4 <~ add_raw h3 p hash ;;
        HtOk (mk_ht (h_bits h4) (h_elems h4 + 1) (h_deleted h4) (h_max h4) (h_maxd h4) (h_cmask h4)
                    (h_cbits h4) (h_pbit h4) (h_inline h4) (h_table h4), true).

  (* htable.c:317-325 *)
  Definition delval (h : ht) (off : N) : htres ht :=
    if negb (off <? size h) then HtErr HtAssert
    else
      e <~ load h off ;;
      if negb (valid e) then HtErr HtAssert
      else
        h' <~ store h off DELETED ;;
        HtOk (mk_ht (h_bits h') (sub64 (h_elems h') 1) (h_deleted h' + 1) (h_max h') (h_maxd h')
                    (h_cmask h') (h_cbits h') (h_pbit h') (h_inline h') (h_table h')).
  (* htable.c:303-315 *)
  Definition ht_del (h : ht) (hash p : N) : htres (ht * bool) :=
    c <~ find_val h hash (N.eqb p) ;;
    match c with
    | None => HtOk (h, false)
    | Some (off, _) => h' <~ delval h off ;; HtOk (h', true)
    end.
End REHASH.

(* htable.c:63-82; [ok]: calloc succeeds *)
Fixpoint size_loop (n : nat) (bits expect : N) : N :=
  match n with
  | O => bits
  | S n' => if max_of bits <? expect then if bits =? 30 then bits else size_loop n' (bits + 1) expect
            else bits
  end.
Definition ht_init_sized (ok : bool) (expect : N) : ht * bool :=
  let bits := size_loop 30 1 expect in
  if ok then (mk_ht bits 0 0 (max_of bits) (maxd_of bits) ones64 0 0 false
                    (repeat 0 (N.to_nat (2 ^ bits))), true)
  else (mk_ht bits 0 0 0 0 ones64 0 0 true [], false).
