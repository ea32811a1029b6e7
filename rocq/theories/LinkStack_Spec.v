(** Specification of a return-address predictor of a given depth. *)
Require Import NArith List Bool.
Require Import Verif.LinkStack_Model.
Import ListNotations.
Local Open Scope N_scope.

(** Calls and returns of a program. [Call a]: a call instruction at [a];
    [Ret t]: a return that went to [t]. *)
Inductive event := Call (a : N) | Ret (t : N).

Definition ret_addr (a : N) : N := (a + 4) mod 2 ^ 64.

(** Events as seen in a trace record stream. *)
Definition event_of (r : ls_rec) : list event :=
  if lr_taken r then
    match lr_kind r with
    | LCall => [Call (lr_addr r)] | LReturn => [Ret (lr_next r)] | LOther => [] end
  else [].

Definition events (rs : list ls_rec) : list event := flat_map event_of rs.

(** Well-matched call/return histories of nesting at most [d]: every return
    goes to the instruction after its matching call. *)
Inductive matched : nat -> list event -> Prop :=
| m_nil : forall d, matched d []
| m_call : forall d a body rest,
    matched d body -> matched (S d) rest ->
    matched (S d) (Call a :: body ++ Ret (ret_addr a) :: rest).

(** The exact behaviour: a ring of [depth] return addresses, newest first. *)
Definition ring_step (s : list N * list bool) (e : event) : list N * list bool :=
  let (ring, out) := s in
  match e with
  | Call a => (ret_addr a :: removelast ring, out)
  | Ret t => (tl ring ++ [hd 0 ring], (hd 0 ring =? t) :: out)
  end.
Definition ring_run (ring : list N) (es : list event) : list N * list bool :=
  fold_left ring_step es (ring, []).

(** An unbounded call stack that forgets all but the [d] newest entries;
    [None] = nothing known about this return. *)
Definition lossy_step (d : nat) (s : list N * list (option bool)) (e : event)
  : list N * list (option bool) :=
  let (st, out) := s in
  match e with
  | Call a => (firstn d (ret_addr a :: st), out)
  | Ret t => match st with
             | [] => ([], None :: out)
             | r :: st' => (st', Some (r =? t) :: out)
             end
  end.
Definition lossy_run (d : nat) (es : list event) : list N * list (option bool) :=
  fold_left (lossy_step d) es ([], []).

(** Predictions agree wherever the lossy stack makes one. *)
Definition agrees (o : option bool) (b : bool) : Prop :=
  match o with Some b' => b = b' | None => True end.

Definition count_false (l : list bool) : N :=
  N.of_nat (length (filter negb l)).

Definition is_ret (e : event) : bool := match e with Ret _ => true | Call _ => false end.
