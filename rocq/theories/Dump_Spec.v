(** How a user reads the output of qtdis -d 1. *)
Require Import NArith List Bool String.
Require Import Verif.Codec_Types Verif.Codec_Spec Verif.Verbose_Model Verif.Verbose_Spec Verif.Vtext_Spec.
Import ListNotations.
Local Open Scope N_scope.
Local Open Scope list_scope.

(** A line is one of a load or store, or of an instruction; it has fields
    name:value. *)
Definition dline : Type := bool * option N * option N * option N.
Definition named (name : string) (t : list N) : list N :=
  match split 58 t with [k; v] => if is name k then [prefixed v] else [] | _ => [] end.
Definition field (name : string) (ts : list (list N)) : option N := hd_error (flat_map (named name) ts).
Definition dread (t : list N) : dline :=
  let ts := tokens t in (is "LDST" (hd [] ts), field "EA" ts, field "RA" ts, field "PAGE_SIZE" ts).
Definition dreads (t : list N) : list dline := List.map dread (removelast (split 10 t)).

(** The same facts among the annotations of qtdis -v *)
Definition pick (f : shown -> list N) (l : list shown) : option N := hd_error (flat_map f l).
Definition p_data (s : shown) : list N := match s with SData a => [a] | _ => [] end.
Definition p_drpn (s : shown) : list N := match s with SDataRpn n => [n] | _ => [] end.
Definition p_dsize (s : shown) : list N := match s with SDataSize n => [n] | _ => [] end.
Definition p_irpn (s : shown) : list N := match s with SInsnRpn n => [n] | _ => [] end.
Definition p_isize (s : shown) : list N := match s with SInsnSize n => [n] | _ => [] end.
(** A page number is shown times 4096, a page size as a number of bytes. *)
Definition page (n : option N) : option N := option_map (fun n => (n * 4096) mod 2 ^ 64) n.
Definition size (s : option N) : option N := option_map (fun s => 2 ^ s) s.
Definition fetch_line (ea : N) (l : list shown) : dline := (false, Some (ea mod 2 ^ 64), page (pick p_irpn l), size (pick p_isize l)).
Definition data_lines (l : list shown) : list dline :=
  match pick p_data l with
  | Some a => [(true, Some (a mod 2 ^ 64), page (pick p_drpn l), size (pick p_dsize l))]
  | None => []
  end.
Definition dlines (ea : N) (l : list shown) : list dline := fetch_line ea l :: data_lines l.

(** Page sizes that can be shown: below 2^64; that of data only matters with an
    address. *)
Definition below (o : option N) : bool := match o with Some n => n <? 64 | None => true end.
Definition sized (l : list shown) : bool :=
  below (pick p_isize l) && (match pick p_data l with Some _ => below (pick p_dsize l) | None => true end).
(** The annotations of a line of -v *)
Definition noted (v : vline) : list shown := flat_map seen (v_notes v).
(** The lines up to the first with a page size that cannot be shown *)
Fixpoint until {A} (f : A -> bool) (l : list A) : list A :=
  match l with [] => [] | x :: l' => if f x then x :: until f l' else [] end.

Definition is_data (d : dline) : bool := fst (fst (fst d)).

(** The line a record with data should have *)
Definition own_data (r : qrec) : list dline :=
  if q_data_addr_valid r
  then [(true, Some (q_data_addr r), optb (q_data_ra_valid r) (q_data_ra r / 4096 * 4096), optb (q_data_ps_valid r) (2 ^ q_data_ps r))]
  else [].
(** Data in pages of 4096 bytes with numbers of 32 bits, and no guest page sizes
    (see C11) *)
Definition small (r : qrec) : Prop :=
  q_ginsn_ps_valid r = false /\
  (q_data_ra_valid r = true -> q_data_ps_valid r = true /\ q_data_ps r = 12 /\ q_data_ra r < 2 ^ 44).
