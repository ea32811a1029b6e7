(** What a reader of the report of a test program finds in it. *)
Require Import NArith List Bool String.
Require Import Verif.Tap_Model.
Require Verif.Vtext_Spec Verif.Tlbdump_Spec.
Import ListNotations.
Local Open Scope N_scope.
Local Open Scope list_scope.
Local Notation codes := Tlbdump_Spec.codes.

(** A test: passed or not, number, title, and a mark *)
Inductive mark := Todo (t : list N) | Skipped (t : list N).
Record result := mk_result { passed : bool; number : N; title : option (list N); marked : option mark }.

(** ** The reader *)
(** What follows a prefix *)
Fixpoint after (p t : list N) : option (list N) :=
  match p, t with
  | [], _ => Some t
  | a :: p', b :: t' => if a =? b then after p' t' else None
  | _, [] => None
  end.
(** Up to a space *)
Fixpoint word (t : list N) : list N * list N :=
  match t with
  | [] => ([], [])
  | c :: r => if c =? 32 then ([], t) else let (a, b) := word r in (c :: a, b)
  end.
(** A title ends at a number sign without a backslash. *)
Fixpoint title_of (t : list N) : list N * option (list N) :=
  match t with
  | [] => ([], None)
  | c :: r =>
      if c =? 35 then ([], Some r)
      else match r with
           | d :: r' =>
               if (c =? 92) && (d =? 35) then let (a, b) := title_of r' in (35 :: a, b)
               else let (a, b) := title_of r in (c :: a, b)
           | [] => ([c], None)
           end
  end.
Definition mark_in (t : list N) : option mark :=
  match after (codes " TODO ") t with
  | Some m => Some (Todo m)
  | None => match after (codes " skip ") t with Some m => Some (Skipped m) | None => None end
  end.
Definition line_result (t : list N) : option result :=
  let (ok, t) := match after (codes "not ") t with Some r => (false, r) | None => (true, t) end in
  match after (codes "ok ") t with
  | None => None
  | Some r =>
      let (n, r) := word r in
      let n := Vtext_Spec.decimal n in
      match after (codes " - ") r with
      | Some u =>
          match title_of u with
          | (a, None) => Some (mk_result ok n (Some a) None)
          | (a, Some v) => Some (mk_result ok n (Some (removelast a)) (mark_in v))
          end
      | None => Some (mk_result ok n None (match after (codes " #") r with Some v => mark_in v | None => None end))
      end
  end.
(** The number of tests that a line announces *)
Definition line_plan (t : list N) : option N :=
  match after (codes "1..") t with Some r => Some (Vtext_Spec.decimal r) | None => None end.
Definition some {A B} (f : A -> option B) (l : list A) : list B := flat_map (fun x => match f x with Some y => [y] | None => [] end) l.
Definition results_of (t : list N) : list result := some line_result (Vtext_Spec.split 10 t).
Definition plans_of (t : list N) : list N := some line_plan (Vtext_Spec.split 10 t).

(** ** The tests of a program *)
Definition text (fixed : string) (o : option (list N)) : list N := match o with Some t => t | None => codes fixed end.
(** [todo]: the message of todo_start; [n] tests are done *)
Fixpoint expected (todo : option (list N)) (n : N) (cs : list call) : list result :=
  match cs with
  | [] => []
  | TOk ok _ _ _ name :: cs' =>
      mk_result ok (n + 1) (option_map (text "libtap malloc issue") name) (option_map Todo todo) :: expected todo (n + 1) cs'
  | TSkip k m :: cs' =>
      map (fun i => mk_result true (n + N.of_nat i) None (Some (Skipped (text "libtap():malloc() failed" m)))) (seq 1 k)
      ++ expected todo (n + N.of_nat k) cs'
  | TTodo m :: cs' => expected (Some (text "libtap malloc issue" m)) n cs'
  | TTodoEnd :: cs' => expected None n cs'
  | _ :: cs' => expected todo n cs'
  end.
(** todo_end comes after todo_start, and there is no further plan. *)
Fixpoint proper (freed : bool) (cs : list call) : Prop :=
  match cs with
  | [] => True
  | TPlan _ :: _ | TNoPlan :: _ | TSkipAll _ :: _ => False
  | TTodo _ :: cs' => proper false cs'
  | TTodoEnd :: cs' => freed = false /\ proper true cs'
  | _ :: cs' => proper freed cs'
  end.
(** No text has a line feed. *)
Definition one_line (t : list N) : Prop := ~ In 10 t.
Definition one_line' (o : option (list N)) : Prop := match o with Some t => one_line t | None => True end.
Definition clean (c : call) : Prop :=
  match c with
  | TOk _ func file _ name => one_line func /\ one_line file /\ match name with Some o => one_line' o | None => True end
  | TDiag t => one_line t
  | TSkip _ m | TTodo m => one_line' m
  | _ => True
  end.
(** A test that failed and was not expected to *)
Definition bad (r : result) : Prop := passed r = false /\ forall t, marked r <> Some (Todo t).
