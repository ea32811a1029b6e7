(** What the translation caches of htm/erat.c and htm/pwc.c should answer,
    in terms of the history of calls. *)
Require Import NArith ZArith List Bool.
Require Import Verif.Word Verif.Codec_Types Verif.Pwc_Model.
Import ListNotations.
Local Open Scope N_scope.

(** ** ERAT *)
Inductive eop :=
| EIns (host address real : N) (rec : radix) (guest : N)
| EGet (shift address real : N).
Definition shift_ok (s : N) : Prop := s = 12 \/ s = 16 \/ s = 21 \/ s = 30.
Definition eop_ok (o : eop) : Prop :=
  match o with
  | EIns host a r _ guest => shift_ok (N.min host guest) /\ a < 2 ^ 64 /\ r < 2 ^ 64
  | EGet s a r => shift_ok s /\ a < 2 ^ 64 /\ r < 2 ^ 64
  end.
(** Insertions of the page pair asked for, oldest first. *)
Fixpoint e_matches (h : list eop) (shift a r : N) : list (radix * N * N) :=
  match h with
  | [] => []
  | EIns host a' r' rec guest :: h' =>
      if (N.min host guest =? shift) && (a' / 2 ^ shift =? a / 2 ^ shift)
         && (r' / 2 ^ shift =? r / 2 ^ shift)
      then (rec, host, guest) :: e_matches h' shift a r
      else e_matches h' shift a r
  | EGet _ _ _ :: h' => e_matches h' shift a r
  end.
(** Walk and guest shift of the newest insertion, host shift of the oldest. *)
Definition e_answer (h : list eop) (shift a r : N) : option eara_val :=
  match e_matches h shift a r with
  | [] => None
  | (rec0, host0, guest0) :: l =>
      let '(rec, _, guest) := last l (rec0, host0, guest0) in
      Some (mk_ev rec host0 guest)
  end.
Fixpoint e_answers (pre h : list eop) : list (option eara_val) :=
  match h with
  | [] => []
  | EGet s a r :: h' => e_answer pre s a r :: e_answers (pre ++ [EGet s a r]) h'
  | o :: h' => e_answers (pre ++ [o]) h'
  end.
(** Running a history; [None] is an assert failure. *)
Fixpoint e_run (e : erat) (h : list eop) : option (erat * list (option eara_val)) :=
  match h with
  | [] => Some (e, [])
  | EIns host a r rec guest :: h' =>
      match erat_insert e host a r rec guest with
      | Some e' => e_run e' h'
      | None => None
      end
  | EGet s a r :: h' =>
      match erat_get e s a r, e_run e h' with
      | Some x, Some (e', xs) => Some (e', x :: xs)
      | _, _ => None
      end
  end.

(** ** Page walk caches *)
Inductive pop :=
| PIns (level : N) (addr : xaddr) (real : N) (leaf : bool)
| PGet (level : N) (addr : xaddr)
| TIns (level : N) (addr : xaddr) (real : N)
| TGet (level : N) (addr : xaddr)
| RIns (level : N) (addr : xaddr) (real : N)
| RGet (level : N) (addr : xaddr).
Inductive pout := OutDir (x : option (N * N)) | OutPage (x : option N).

Definition level_ok (l : N) : Prop :=
  l = XLATE_PGD \/ l = XLATE_PUD \/ l = XLATE_PMD \/ l = XLATE_4K_PTE \/ l = XLATE_64K_PTE.
Definition pop_ok (o : pop) : Prop :=
  match o with
  | PIns l a r _ => level_ok l /\ r < 2 ^ 64
  | PGet l a => level_ok l
  | TIns l a r | RIns l a r => shift_ok l
  | TGet l a | RGet l a => shift_ok l
  end.

(** Radix tree geometry: address bits above 2^52 are ignored; 13 + 9 + 9 + 9
    (or 5) index bits over 4K (64K) pages. *)
Definition covers (level : N) : N :=      (* log2 of what one entry maps *)
  if level =? XLATE_PGD then 39 else if level =? XLATE_PUD then 30
  else if level =? XLATE_PMD then 21 else if level =? XLATE_64K_PTE then 16 else 12.
Definition width (level : N) : N :=       (* log2 of the number of entries *)
  if level =? XLATE_PGD then 13 else if level =? XLATE_64K_PTE then 5 else 9.
Definition entry (level a : N) : N := a / 2 ^ covers level mod 2 ^ width level.
Definition dir (level a : N) : N := a mod 2 ^ 52 / 2 ^ (covers level + width level).

Definition same_ids (x y : xaddr) : bool :=
  Z.eqb (xa_msr x) (xa_msr y) && (xa_lpid x =? xa_lpid y) && (xa_pid x =? xa_pid y).
Definition same_dir (l : N) (x : xaddr) (l' : N) (y : xaddr) : bool :=
  (l =? l') && same_ids x y && (dir l (xa_address x) =? dir l (xa_address y)).
Definition same_entry (l : N) (x : xaddr) (l' : N) (y : xaddr) : bool :=
  same_dir l x l' y && (entry l (xa_address x) =? entry l (xa_address y)).

(** Newest insertion into the directory: (address, real address of its entry). *)
Fixpoint last_dir (h : list pop) (l : N) (a : xaddr) : option (N * N) :=
  match h with
  | [] => None
  | PIns l' a' r _ :: h' =>
      match last_dir h' l a with
      | Some x => Some x
      | None => if same_dir l' a' l a then Some (xa_address a', r) else None
      end
  | _ :: h' => last_dir h' l a
  end.
(** Kind given by the newest insertion of the entry. *)
Fixpoint last_leaf (h : list pop) (l : N) (a : xaddr) : option bool :=
  match h with
  | [] => None
  | PIns l' a' _ leaf :: h' =>
      match last_leaf h' l a with
      | Some x => Some x
      | None => if same_entry l' a' l a then Some leaf else None
      end
  | _ :: h' => last_leaf h' l a
  end.
(** Entries are 8 bytes apart. *)
Definition dir_answer (h : list pop) (l : N) (a : xaddr) : option (N * N) :=
  match last_dir h l a with
  | None => None
  | Some (a', r) =>
      Some (Z.to_N ((Z.of_N r + 8 * (Z.of_N (entry l (xa_address a)) - Z.of_N (entry l a')))
                    mod 2 ^ 64),
            match last_leaf h l a with
            | Some true => 1 | Some false => 2 | None => 0
            end)
  end.

Definition same_page (l : N) (x : xaddr) (l' : N) (y : xaddr) : bool :=
  (l =? l') && same_ids x y && (xa_address x mod 2 ^ 52 / 2 ^ l =? xa_address y mod 2 ^ 52 / 2 ^ l).
(** Newest insertion of the page into the translation cache ([rev] = false) or
    the reverse cache: real page number. *)
Fixpoint last_page (rev : bool) (h : list pop) (l : N) (a : xaddr) : option N :=
  match h with
  | [] => None
  | TIns l' a' r :: h' =>
      match last_page rev h' l a with
      | Some x => Some x
      | None => if negb rev && same_page l' a' l a then Some (r mod 2 ^ 52 / 2 ^ l) else None
      end
  | RIns l' a' r :: h' =>
      match last_page rev h' l a with
      | Some x => Some x
      | None => if rev && same_page l' a' l a then Some (r mod 2 ^ 52 / 2 ^ l) else None
      end
  | _ :: h' => last_page rev h' l a
  end.
Definition page_answer (rev : bool) (h : list pop) (l : N) (a : xaddr) : option N :=
  option_map (fun p => p * 2 ^ l + xa_address a mod 2 ^ l) (last_page rev h l a).

Definition p_answer (pre : list pop) (o : pop) : list pout :=
  match o with
  | PGet l a => [OutDir (dir_answer pre l a)]
  | TGet l a => [OutPage (page_answer false pre l a)]
  | RGet l a => [OutPage (page_answer true pre l a)]
  | _ => []
  end.
Fixpoint p_answers (pre h : list pop) : list pout :=
  match h with
  | [] => []
  | o :: h' => p_answer pre o ++ p_answers (pre ++ [o]) h'
  end.
Definition p_step (p : pwc) (o : pop) : option (pwc * list pout) :=
  match o with
  | PIns l a r leaf => option_map (fun p' => (p', [])) (pwc_insert p l a r leaf)
  | TIns l a r => option_map (fun p' => (p', [])) (pwc_tlb_insert p l a r)
  | RIns l a r => option_map (fun p' => (p', [])) (pwc_reverse_insert p l a r)
  | PGet l a => option_map (fun x => (p, [OutDir x])) (pwc_get p l a)
  | TGet l a => option_map (fun x => (p, [OutPage x])) (pwc_tlb_get p l a)
  | RGet l a => option_map (fun x => (p, [OutPage x])) (pwc_reverse_get p l a)
  end.
Fixpoint p_run (p : pwc) (h : list pop) : option (pwc * list pout) :=
  match h with
  | [] => Some (p, [])
  | o :: h' =>
      match p_step p o with
      | None => None
      | Some (p', x) =>
          match p_run p' h' with
          | None => None
          | Some (p'', y) => Some (p'', x ++ y)
          end
      end
  end.
