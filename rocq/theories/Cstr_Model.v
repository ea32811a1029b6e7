(** Model of qtrace-bbv/ccan/str/str.h (streq, strstarts, strends,
    STR_MAX_CHARS) and qtrace-bbv/ccan/asprintf/asprintf.c. *)
Require Import NArith List Bool.
Import ListNotations.
Local Open Scope N_scope.

(** ** Strings in memory *)
(** A pointer is what is left of its object, from where it points to the end;
    reading behind the end of an object has no result.  strlen, strcmp and
    strncmp are the functions of the C library; of the last two only whether the
    result is 0. *)
Fixpoint strlen (m : list N) : option nat :=
  match m with
  | [] => None
  | c :: m' => if c =? 0 then Some O else option_map S (strlen m')
  end.
Fixpoint strcmp (a b : list N) : option bool :=
  match a, b with
  | x :: a', y :: b' => if negb (x =? y) then Some false else if x =? 0 then Some true else strcmp a' b'
  | _, _ => None
  end.
Fixpoint strncmp (a b : list N) (n : nat) : option bool :=
  match n with
  | O => Some true
  | S n' =>
      match a, b with
      | x :: a', y :: b' => if negb (x =? y) then Some false else if x =? 0 then Some true else strncmp a' b' n'
      | _, _ => None
      end
  end.
(* str.h:21 *)
Definition streq (a b : list N) : option bool := strcmp a b.
(* str.h:32 *)
Definition strstarts (str prefix : list N) : option bool :=
  match strlen prefix with Some n => strncmp str prefix n | None => None end.
(* str.h:43-49; str + strlen(str) - strlen(postfix) *)
Definition strends (str postfix : list N) : option bool :=
  match strlen str, strlen postfix with
  | Some n, Some k => if Nat.ltb n k then Some false else streq (skipn (n - k) str) postfix
  | _, _ => None
  end.
(* str.h:89-91; the check of the type adds 0 *)
Definition str_max_chars (size : N) : N := (size * 8 + 8) / 9 * 3 + 2.

(** ** asprintf *)
(** What happens: a return value with the pointer, a signed overflow, or a store
    behind the end of the allocated memory.  The pointer is null, indeterminate
    (not set), or to an object. *)
Inductive ptr := PUnset | PNull | PTo (m : list N).
Inductive ares := AReturn (len : option N) (p : ptr) | AOverflow | AFault.
Definition int_max : N := 2 ^ 31 - 1.
(** vsnprintf(NULL, 0, …): the length, or an error; lengths that are no int are errors *)
Definition vsnprintf_len (text : option (list N)) : option N :=
  match text with
  | Some t => let n := N.of_nat (length t) in if n <=? int_max then Some n else None
  | None => None
  end.
(** vsprintf into an object of [size] bytes *)
Definition vsprintf (size : N) (t : list N) : option (list N) :=
  if N.of_nat (length (t ++ [0])) <=? size then Some (t ++ [0]) else None.
(* asprintf.c:23-43; [text]: what the format expands to, [None] if it cannot be;
   [malloc]: whether memory of that size is to be had; the return value [None]
   is -1 *)
Definition vasprintf (malloc : N -> bool) (text : option (list N)) : ares :=
  match vsnprintf_len text, text with
  | Some len, Some t =>
      if int_max <? len + 1 then AOverflow
      else if malloc (len + 1) then
        match vsprintf (len + 1) t with Some m => AReturn (Some len) (PTo m) | None => AFault end
      else AReturn None PNull
  | _, _ => AReturn None PUnset
  end.
(* asprintf.c:45-55 *)
Definition asprintf := vasprintf.
(* asprintf.c:6-17 *)
Inductive afres := FNull | FText (m : list N) | FUndefined.
Definition afmt (malloc : N -> bool) (text : option (list N)) : afres :=
  match vasprintf malloc text with
  | AReturn None _ => FNull
  | AReturn (Some _) (PTo m) => FText m
  | AReturn (Some _) PNull => FNull
  | _ => FUndefined
  end.
