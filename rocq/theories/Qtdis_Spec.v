(** What qtdis shows of a trace, as records. *)
Require Import NArith List Bool.
Require Import Verif.Codec_Types Verif.Codec_Spec Verif.Reader_Model Verif.Qtdis_Model.
Import ListNotations.
Local Open Scope N_scope.

Definition word (r : rrec) : N := q_insn (o_q r).
Definition prefix (r : rrec) : bool := word r / 2 ^ 26 =? 1.

(** Instructions: one record, or a prefix and the record behind it. *)
Fixpoint insns (l : list rrec) : list (rrec * option rrec) :=
  match l with
  | [] => []
  | r :: l' =>
      if prefix r then match l' with [] => [] | r2 :: l'' => (r, Some r2) :: insns l'' end
      else (r, None) :: insns l'
  end.
(** No prefix without suffix at the end *)
Fixpoint whole (l : list rrec) : bool :=
  match l with
  | [] => true
  | r :: l' => if prefix r then match l' with [] => false | _ :: l'' => whole l'' end else whole l'
  end.
Definition behind (i : rrec * option rrec) : N :=
  o_next_addr (match snd i with Some r2 => r2 | None => fst i end).
(** The address of an instruction is where the one before said it would be. *)
Fixpoint at_addresses (a : N) (l : list (rrec * option rrec)) : list N :=
  match l with [] => [] | i :: l => a :: at_addresses (behind i) l end.

Definition lines (l : list out) : list (N * list N) :=
  flat_map (fun x => match x with Line a w => [(a, w)] | _ => [] end) l.
Definition logged (l : list out) : list (N * N) :=
  flat_map (fun x => match x with Stat a w => [(a, w)] | _ => [] end) l.
Definition counted (l : list out) : list N :=
  flat_map (fun x => match x with Block a => [a] | _ => [] end) l.
Definition fetches (l : list out) : list (N * option N * option N) :=
  flat_map (fun x => match x with Fetch a r s => [(a, r, s)] | _ => [] end) l.
Definition accesses (l : list out) : list (N * option N) :=
  flat_map (fun x => match x with LdSt a s => [(a, s)] | _ => [] end) l.

(** The words qtdis shows: behind a prefix it is the word that came behind the
    prefix before, 0 for the first. *)
Fixpoint latest_suffix (ws : list N) : N :=
  match ws with
  | w :: ((p :: _) as ws') => if p / 2 ^ 26 =? 1 then w else latest_suffix ws'
  | _ => 0
  end.
(** [ws]: the words before, latest first *)
Fixpoint shown_words (ws : list N) (l : list (rrec * option rrec)) : list (list N) :=
  match l with
  | [] => []
  | (r, None) :: l => [word r] :: shown_words (word r :: ws) l
  | (r, Some r2) :: l => [word r; latest_suffix (word r :: ws)] :: shown_words (word r2 :: word r :: ws) l
  end.

(** The same of written records: the first records of the instructions. *)
Fixpoint firsts (rs : list qrec) : list qrec :=
  match rs with
  | [] => []
  | r :: rs' => r :: (if is_prefix_word (q_insn r) then match rs' with [] => [] | _ :: rs'' => firsts rs'' end
                      else firsts rs')
  end.
Fixpoint complete (rs : list qrec) : bool :=
  match rs with
  | [] => true
  | r :: rs' => if is_prefix_word (q_insn r) then match rs' with [] => false | _ :: rs'' => complete rs'' end
                else complete rs'
  end.
