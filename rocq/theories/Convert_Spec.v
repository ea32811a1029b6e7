(** What a reader should see of a converted hardware trace. *)
Require Import NArith ZArith List Bool.
Require Import Verif.Codec_Types Verif.Branch_Spec Verif.Codec_Spec Verif.HtmBits_Spec Verif.Trace_Spec Verif.Trace10_Spec.
Import ListNotations.
Local Open Scope N_scope.

(** What is known of an instruction: word, address, real address and page
    shift, data address, its real address and page shift, whether it is a
    branch, page shifts of the guest, walks. *)
Record given := mk_given {
  g_insn : N; g_addr : N; g_ira : option (N * N); g_dea : option N; g_dra : option (N * N);
  g_branch : option Prop; g_gips : option N; g_gdps : option N;
  g_iwalk : option radix; g_dwalk : option radix }.
Definition given_of (e : erec) : list given :=
  match e with
  | EStamp _ => []
  | EInsn insn addr ira dea dra => [mk_given insn addr ira dea dra None None None None None]
  | EInsn10 insn addr ira dea dra branch _ gips gdps iwalk dwalk =>
      [mk_given insn addr ira dea dra (Some branch) gips gdps iwalk dwalk]
  end.

(** The file has real page numbers of 32 bits. *)
Definition stored (x : N * N) : N * N := (fst x / 2 ^ snd x mod 2 ^ 32, snd x).
Definition located (p : N * N) (a : N) : N := fst p * 2 ^ snd p + a mod 2 ^ snd p.
Definition seq (prev : given) : N := (g_addr prev + 4) mod 2 ^ 64.
Definition jumps (prev cur : given) : bool := negb (g_addr cur =? seq prev).

(** The page of instructions is that of the latest instruction that did not
    follow its predecessor in memory: page, shift in the guest, walk. *)
Record place := mk_place { l_page : option (N * N); l_guest : option N; l_walk : option wk }.
Definition walk_seen (w : option radix) : option wk :=
  match w with Some r => walk_of 0 r | None => None end.
Definition first_place (g : given) : place :=
  mk_place (option_map stored (g_ira g)) (g_gips g) (walk_seen (g_iwalk g)).
(** The data page shift of an instruction and the guest's page shift for the
    next one, if both are stored, are exchanged. *)
Definition exchanged (prev cur : given) : option N :=
  match g_dra prev, g_gips cur with
  | Some (_, d), Some g => if jumps prev cur then Some g else None
  | _, _ => None
  end.
Definition next_place (p : place) (prev cur : given) : place :=
  if jumps prev cur then
    mk_place (por (option_map stored (g_ira cur)) (l_page p))
             (por (match exchanged prev cur with Some _ => option_map snd (g_dra prev) | None => g_gips cur end)
                  (l_guest p))
             (por (walk_seen (g_iwalk cur)) (l_walk p))
  else p.

(** An instruction that looks like a conditional branch. *)
Definition conditional (w : N) : Prop := isa_bo_branch w /\ ~ isa_BO_always w.
(** The record of an instruction; [swap]: the page shift it has instead of its
    own. *)
Definition shows (p : place) (g : given) (swap : option N) (next : N) (v : view) : Prop :=
  let jump := next <> seq g in
  v_insn v = g_insn g /\ v_addr v = g_addr g
  /\ v_ra v = option_map (fun x => located x (g_addr g)) (l_page p)
  /\ v_ps v = option_map snd (l_page p) /\ v_gps v = l_guest p /\ v_walk v = l_walk p
  /\ v_daddr v = g_dea g
  /\ v_dps v = option_map (fun x => dflt swap (snd x)) (g_dra g)
  /\ v_dra v = option_map (fun x => located (fst (stored x), dflt swap (snd x)) (dflt (g_dea g) 0)) (g_dra g)
  /\ v_gdps v = g_gdps g /\ v_dwalk v = walk_seen (g_dwalk g)
  /\ v_next v = next /\ (v_taken v = true <-> jump)
  /\ match g_branch g with
     | Some b =>
         (v_branch v = true <-> b \/ jump \/ conditional (g_insn g))
         /\ (v_cond v = true <-> conditional (g_insn g) /\ (b \/ ~ jump))
     | None => True
     end.
Fixpoint shown (p : place) (g : given) (l : list given) (vs : list view) : Prop :=
  match vs with
  | [] => False
  | v :: vs' =>
      match l with
      | [] => shows p g None (seq g) v /\ vs' = []
      | g' :: l' =>
          shows p g (exchanged g g') (g_addr g') v /\ shown (next_place p g g') g' l' vs'
      end
  end.
Definition converted (l : list given) (vs : list view) : Prop :=
  match l with [] => vs = [] | g :: l' => shown (first_place g) g l' vs end.

(** Memory that was not initialised: the fields have the type of C. *)
Definition quiet10 (q : qrec) : Prop := typed q /\ rx_nr_ptes (q_radix_insn q) = 0.
Definition quiet8 (q : qrec) : Prop :=
  quiet10 q /\ rx_nr_ptes (q_radix_data q) = 0
  /\ q_ginsn_ps_valid q = false /\ q_gdata_ps_valid q = false.

(** Words other than 0, which a qtrace file cannot have except after a prefix. *)
Definition worded10 (x : item10) : Prop :=
  match x with
  | JInsn i => match t_prefix i with None => t_insn i <> 0 | Some p => field 64 (snd p) 0 5 = 1 end
  | _ => True
  end.
