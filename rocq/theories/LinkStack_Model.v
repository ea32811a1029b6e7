(** Model of branch/link_stack.c.  Array accesses are checked: [None] is an
    out-of-bounds access (undefined behaviour in C). *)
Require Import NArith List Bool.
Require Import Verif.Word.
Import ListNotations.
Local Open Scope N_scope.

(* branch/link_stack.c:26-47; [collisions] is never used by the C code. *)
Record link_stack := mk_ls {
  ls_depth : N;
  ls_offset : N;
  ls_predictions : N;
  ls_mispredictions : N;
  ls_entries : list N
}.

(** entries[i] *)
Definition ls_get (l : list N) (i : N) : option N := nth_error l (N.to_nat i).
(** entries[i] = v *)
Definition ls_set (l : list N) (i v : N) : option (list N) :=
  if i <? N.of_nat (length l)
  then Some (firstn (N.to_nat i) l ++ v :: skipn (S (N.to_nat i)) l)
  else None.

(* branch/link_stack.c:49-69; allocation failure (exit) is not modelled. *)
Definition link_stack_init (depth : N) : link_stack :=
  mk_ls depth (sub64 depth 1) 0 0 (repeat 0 (N.to_nat depth)).

(* branch/link_stack.c:71-79 *)
Definition link_stack_push (p : link_stack) (addr : N) : option link_stack :=
  let off := if ls_offset p =? sub64 (ls_depth p) 1 then 0
             else add64 (ls_offset p) 1 in
  match ls_set (ls_entries p) off (add64 addr 4) with
  | Some e => Some (mk_ls (ls_depth p) off (ls_predictions p) (ls_mispredictions p) e)
  | None => None
  end.

(* branch/link_stack.c:81-96 *)
Definition link_stack_pop (p : link_stack) (addr : N) : option (link_stack * bool) :=
  match ls_get (ls_entries p) (ls_offset p) with
  | None => None
  | Some predicted =>
      let off := if ls_offset p =? 0 then sub64 (ls_depth p) 1 else ls_offset p - 1 in
      let hit := predicted =? addr in
      Some (mk_ls (ls_depth p) off (add64 (ls_predictions p) 1)
              (if hit then ls_mispredictions p else add64 (ls_mispredictions p) 1)
              (ls_entries p), hit)
  end.

(** The fields of a trace record the tool looks at.  Branch kinds other than
    CALL and RETURN are ignored (line 157 only prints). *)
Inductive ls_kind := LCall | LReturn | LOther.
Record ls_rec := mk_lsr {
  lr_taken : bool; lr_kind : ls_kind; lr_addr : N; lr_next : N }.

(* branch/link_stack.c:150-169: body of the main loop; the list collects the
   values printed at line 167 (newest first). *)
Definition ls_step (s : option (link_stack * list bool)) (r : ls_rec)
  : option (link_stack * list bool) :=
  match s with
  | None => None
  | Some (p, out) =>
      if lr_taken r then
        match lr_kind r with
        | LCall => match link_stack_push p (lr_addr r) with
                   | Some p' => Some (p', out) | None => None end
        | LReturn => match link_stack_pop p (lr_next r) with
                     | Some (p', b) => Some (p', b :: out) | None => None end
        | LOther => Some (p, out)
        end
      else Some (p, out)
  end.

Definition ls_main (depth : N) (rs : list ls_rec) : option (link_stack * list bool) :=
  fold_left ls_step rs (Some (link_stack_init depth, [])).
