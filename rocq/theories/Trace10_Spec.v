(** What the words of a POWER10 hardware trace mean. *)
Require Import NArith ZArith List Bool.
Require Import Verif.Word Verif.Codec_Types Verif.Branch_Spec Verif.HtmBits_Spec.
Require Import Verif.Pwc_Model Verif.Pwc_Spec Verif.Xlate_Model Verif.Xlate_Spec.
Require Import Verif.Htm_Model Verif.Trace_Spec.
Require Verif.Resume_Spec.
Import ListNotations.
Local Open Scope N_scope.

(** The instruction word for the word in the trace. *)
Inductive shown10 (iea : N) : bool -> N -> N -> Prop :=
| s10_other w : ~ (field 32 w 0 5 = 19 /\ field 32 w 26 30 = 16) -> shown10 iea false w w
| s10_register w : field 32 w 0 5 = 19 -> field 32 w 26 30 = 16 ->
    shown10 iea false w (N.ldiff w 0xe000)
| s10_b x0 x13 x14 li lk : li < 2 ^ 24 -> iea mod 4 = 0 ->
    ~ looks_isel (p10_i_rel x0 x13 x14 li lk iea) ->
    shown10 iea true (p10_i_rel x0 x13 x14 li lk iea) (iform li false lk)
| s10_ba x0 x13 x14 li lk : li < 2 ^ 24 -> ~ looks_isel (p10_i_abs x0 x13 x14 li lk) ->
    shown10 iea true (p10_i_abs x0 x13 x14 li lk) (iform li true lk)
| s10_bc x0 x9 x14 bo bi bd lk : bo < 2 ^ 5 -> bi < 2 ^ 5 -> bd < 2 ^ 14 -> iea mod 4 = 0 ->
    ~ looks_isel (p10_b_rel x0 x9 x14 bo bi bd lk iea) ->
    shown10 iea true (p10_b_rel x0 x9 x14 bo bi bd lk iea) (bform bo bi bd false lk)
| s10_bca x0 x9 x14 bo bi bd lk : bo < 2 ^ 5 -> bi < 2 ^ 4 -> bd < 2 ^ 14 ->
    ~ looks_isel (p10_b_abs x0 x9 x14 bo bi bd lk) ->
    shown10 iea true (p10_b_abs x0 x9 x14 bo bi bd lk) (bform bo bi bd true lk)
| s10_xl x0 x23 x4 x9 x14 x19 x23_31 type bo bi bh lk tar :
    x23 < 2 ^ 2 -> x19 < 2 ^ 1 -> x23_31 < 2 ^ 9 -> bo < 2 ^ 5 -> bi < 2 ^ 5 -> bh < 2 ^ 2 ->
    type = 2 \/ type = 3 ->
    (type = 3 -> ~ In (field 32 (p10_xl x0 x23 x4 x9 x14 x19 x23_31 type bo bi bh lk tar) 0 5)
                      [17; 19; 31]) ->
    ~ looks_isel (p10_xl x0 x23 x4 x9 x14 x19 x23_31 type bo bi bh lk tar) ->
    shown10 iea true (p10_xl x0 x23 x4 x9 x14 x19 x23_31 type bo bi bh lk tar)
      (xlform (xl_op type tar) (kept_bo bo) bi bh lk)
| s10_system hi lo j : hi < 2 ^ 11 -> lo < 2 ^ 17 -> j < 2 ^ 2 ->
    system_word (hi * 2 ^ 21 + lo) -> ~ looks_isel (hi * 2 ^ 21 + lo + (3 * 4 + j) * 2 ^ 17) ->
    shown10 iea true (hi * 2 ^ 21 + lo + (3 * 4 + j) * 2 ^ 17) (hi * 2 ^ 21 + lo).

(** A word and the stamps before it. *)
Definition sword := (stamps * N)%type.
Definition words_of (l : list sword) : list N := flat_map (fun p => map fst (fst p) ++ [snd p]) l.
Definition stamps_of (l : list sword) : stamps := flat_map fst l.
Definition sword_ok (p : sword) : Prop :=
  stamps_ok (fst p) /\ snd p < 2 ^ 64 /\ field 64 (snd p) 0 19 <> 0xACEFF.

(** The first words of the three kinds of records: bits 34 and 35. *)
Definition header (top kind low : N) : N := top * 2 ^ 30 + kind * 2 ^ 28 + 0xABCDF * 2 ^ 8 + low.
(** A step of a walk. *)
Definition walk_word (last : bool) (w : walk) (x : N) : N :=
  b1 (wk_final w) * 2 ^ 63 + b1 (wk_exception w) * 2 ^ 62 + b1 (wk_guest w) * 2 ^ 61
  + b1 (wk_host w) * 2 ^ 60 + wk_level w * 2 ^ 57 + b1 last * 2 ^ 56 + wk_ra w / 8 * 8 + x.
Definition walk_fits (w : walk) : Prop := wk_level w < 8 /\ wk_ra w < 2 ^ 56 /\ wk_ra w mod 8 = 0.
(** A walk in the trace: side, partition and process, steps, a last word that is
    no step.  [y_walk]: the complete walk. *)
Record xl := mk_xl {
  y_head : stamps; y_dside : bool; y_lpid : N; y_pid : N; y_x33 : N; y_x56 : N;
  y_steps : list (stamps * walk * N); y_end : stamps * walk * N; y_walk : full_walk }.
Definition y_records (y : xl) : list walk := map (fun p => snd (fst p)) (y_steps y).
Definition xl_words (y : xl) : list sword :=
  (y_head y, header (b1 (y_dside y) * 2 ^ 33 + y_lpid y * 2 ^ 21 + y_pid y * 2 + y_x33 y) 1 (y_x56 y))
  :: map (fun p => (fst (fst p), walk_word false (snd (fst p)) (snd p))) (y_steps y)
  ++ [(fst (fst (y_end y)), walk_word true (snd (fst (y_end y))) (snd (y_end y)))].
Definition xl_ok (dside : bool) (y : xl) : Prop :=
  y_dside y = dside /\ y_lpid y < 2 ^ 12 /\ y_pid y < 2 ^ 20 /\ y_x33 y < 2 /\ y_x56 y < 2 ^ 8
  /\ (length (y_steps y) <= 37)%nat
  /\ Forall (fun p => walk_fits (snd (fst p)) /\ snd p < 8) (y_end y :: y_steps y).
(** The walk that ends at a real page. *)
Definition ends_at (r : N) (y : xl) : bool :=
  match rev (y_records y) with w :: _ => wk_ra w =? r | [] => false end.
Definition walk_for (l : list xl) (r : N) : option xl := find (ends_at r) l.

(** An instruction: walks of its address, the address and real page, walks of
    its data addresses, the instruction, the state it is executed in, the
    prefix, data addresses and their real pages.  [t_esid]: the data words are
    a segment and its virtual segment. *)
Record insn10 := mk_insn10 {
  t_ixl : list xl; t_addr : option ((stamps * N * N) * sword * sword); t_dxl : list xl;
  t_stamps : stamps; t_insn : N; t_raw : N; t_branch : bool; t_off : N; t_esid : bool;
  t_msr : sword; t_prefix : option sword; t_data : list (sword * sword) }.
Section INSN10.
  Variable i : insn10.
  Definition t_hv : bool := ibm_bit 64 (snd (t_msr i)) 0.
  Definition t_ir : bool := ibm_bit 64 (snd (t_msr i)) 2.
  Definition t_dr : bool := ibm_bit 64 (snd (t_msr i)) 3.
  (** The 128 byte line of the instruction and its real page. *)
  Definition line10 (prev : N) : N :=
    match t_addr i with Some (_, a, _) => field 64 (snd a) 0 56 * 128 | None => prev / 128 * 128 end.
  Definition page10 (prev : N) : N :=
    match t_addr i with Some (_, _, r) => field 64 (snd r) 0 39 * 4096 | None => prev end.
  Definition addr10 (prev : N) : N := line10 prev + 4 * t_off i.

  Definition addr_words : list sword :=
    match t_addr i with
    | Some (h, a, r) => [(fst (fst h), header (snd (fst h)) 3 (snd h)); a; r]
    | None => []
    end.
  Definition kind10 : N := if t_esid i then 3 else N.of_nat (length (t_data i)).
  (** Bits 56 to 61: the address in a block of 256 bytes. *)
  Definition info10_word (prev : N) : sword :=
    (t_stamps i, header (t_raw i * 4 + b1 (t_branch i) * 2 + b1 (here (t_prefix i))) 2
                   (addr10 prev mod 256 + kind10)).
  Definition prefix_words : list sword := match t_prefix i with Some p => [p] | None => [] end.
  Definition insn10_words (prev : N) : list sword :=
    flat_map xl_words (t_ixl i) ++ addr_words ++ flat_map xl_words (t_dxl i)
    ++ [info10_word prev; t_msr i] ++ prefix_words
    ++ flat_map (fun p => [fst p; snd p]) (t_data i).
End INSN10.

(** ** Translation *)
(** The guest real address of another address in the same guest page. *)
Definition at_offset (rec : radix) (shift a : N) : radix :=
  let n := (N.to_nat (rx_walks rec) - 1)%nat in
  mk_radix (rx_type rec) (rx_nr_ptes rec) (rx_walks rec) (rx_host_ptes rec) (rx_host_real rec)
    (firstn n (rx_guest_real rec)
     ++ (nth n (rx_guest_real rec) 0 / 2 ^ shift * 2 ^ shift + a mod 2 ^ shift)
     :: skipn (S n) (rx_guest_real rec)).
Definition trans := (radix * N * N)%type.      (** walk, host and guest page shift *)
Definition no_trans : trans := (zero_radix, 0, 0).
(** The largest page seen before, see [e_answer]. *)
Definition seen (h : list eop) (a r : N) : option eara_val :=
  match e_answer h 30 a r, e_answer h 21 a r, e_answer h 16 a r, e_answer h 12 a r with
  | Some v, _, _, _ => Some v
  | _, Some v, _, _ => Some v
  | _, _, Some v, _ => Some v
  | _, _, _, v => v
  end.
(** Translation of an address by a walk in the trace, or by what was seen. *)
Definition translate (h : list eop) (hv reloc : bool) (given : option xl) (a r : N)
  : list eop * option trans :=
  match given with
  | Some y =>
      let t := y_walk y in
      (h ++ [EIns (host_shift t) a r (fw_radix t) (guest_shift t)],
       Some (fw_radix t, host_shift t, guest_shift t))
  | None =>
      (h, if hv then Some no_trans
          else match seen h a r with
               | None => None
               | Some v =>
                   Some (if reloc then (at_offset (ev_rec v) (ev_guest v) a, ev_host v, ev_guest v)
                         else (ev_rec v, ev_host v, 0))
               end)
  end.
Definition or_none (t : option trans) : trans := match t with Some x => x | None => no_trans end.

(** What a walk of an address asked for. *)
Definition asked (y : xl) (a : N) : Resume_Spec.request :=
  let t := y_walk y in
  Resume_Spec.mk_rq (y_lpid y) (y_pid y) a
    match fw_table t with Some (pa, pr, _) => Some (pa, pr) | None => None end
    (fst (fw_final t)) (hw_ra (snd (fw_final t))) (fw_glevel t) (fw_hlevel t).
Definition also (h : list Resume_Spec.request) (g : option xl) (a : N) : list Resume_Spec.request :=
  match g with Some y => asked y a :: h | None => h end.

(** Position, walks seen, the translation of the latest page, and all walks
    used so far. *)
Record st10 := mk_st10 {
  z_ea : N; z_ra : N; z_walks : bool; z_seen : list eop; z_cur : trans; z_asked : list Resume_Spec.request }.
Definition start10 : st10 := mk_st10 0 0 false [] no_trans [].

Section STEP10.
  Variable i : insn10.
  Variable z : st10.
  Definition ea10 : N := addr10 i (z_ea z).
  Definition ra10 : N := page10 i (z_ra z).
  Definition walks10 : bool :=
    z_walks z || match t_ixl i ++ t_dxl i with [] => false | _ => true end.
  Definition i_given : option xl := match t_addr i with Some _ => walk_for (t_ixl i) ra10 | None => None end.
  Definition i_trans : list eop * option trans :=
    translate (z_seen z) (t_hv i) (t_ir i) i_given ea10 ra10.
  (** The translation of the instruction. *)
  Definition inside : bool := negb (t_hv i) && t_ir i.
  Definition cur10 : trans :=
    match t_addr i with
    | Some _ => or_none (snd i_trans)
    | None =>
        let '(rec, h, g) := z_cur z in
        if inside && negb (h =? 0) then (at_offset rec g ea10, h, g) else z_cur z
    end.
  Definition seen_i : list eop := match t_addr i with Some _ => fst i_trans | None => z_seen z end.
  (** Data addresses in turn. *)
  Definition dea10 (p : sword * sword) : N := snd (fst p).
  Definition dra10 (p : sword * sword) : N := field 64 (snd (snd p)) 0 40 * 4096.
  Definition d_given (p : sword * sword) : option xl := walk_for (t_dxl i) (dra10 p).
  Definition d_trans (h : list eop) (p : sword * sword) : list eop * option trans :=
    translate h (t_hv i) (t_dr i) (d_given p) (dea10 p) (dra10 p).
  Definition seen10 : list eop :=
    if t_esid i then seen_i else fold_left (fun h p => fst (d_trans h p)) (t_data i) seen_i.
  Definition asked_i : list Resume_Spec.request := also (z_asked z) i_given ea10.
  Definition asked_d (h : list Resume_Spec.request) (p : sword * sword) : list Resume_Spec.request :=
    also h (d_given p) (dea10 p).
  Definition asked10 : list Resume_Spec.request :=
    if t_esid i then asked_i else fold_left asked_d (t_data i) asked_i.
  Definition next10 (full : bool) : st10 :=
    if full then mk_st10 ea10 ra10 walks10 seen10 cur10 asked10
    else mk_st10 ea10 ra10 walks10 (z_seen z) (z_cur z) (z_asked z).

  (** ** Records *)
  Definition real10 (t : trans) (a r : N) : option (N * N) :=
    let '(_, h, _) := t in if h =? 0 then None else Some (r + a mod 4096, h).
  Definition guest10 (t : trans) : option N := let '(_, _, g) := t in if g =? 0 then None else Some g.
  Definition walk10 (t : trans) : option radix :=
    let '(rec, h, _) := t in if h =? 0 then None else Some rec.
  Definition data10 : option (sword * sword) := if t_esid i then None else hd_error (t_data i).
  Definition dtrans10 : trans :=
    match data10 with Some p => or_none (snd (d_trans seen_i p)) | None => no_trans end.
  Definition record_of10 : list erec :=
    let branch := t_branch i = true
      \/ In (t_insn i) [0x4c0000a4; 0x4c000024; 0x4c000224; 0x44000002; 0x44000022]
      \/ field 32 (t_insn i) 0 19 = 0x44000 /\ ibm_bit 32 (t_insn i) 31 = true in
    let cond w := isa_bo_branch w /\ ~ isa_BO_always w in
    let whole w :=
      EInsn10 w ea10 (if t_esid i then None else real10 cur10 ea10 ra10)
        (option_map dea10 data10)
        match data10 with Some p => real10 dtrans10 (dea10 p) (dra10 p) | None => None end
        branch (cond w) (guest10 cur10) (guest10 dtrans10)
        (if t_esid i then None else walk10 cur10) (walk10 dtrans10) in
    match t_prefix i with
    | None => [whole (t_insn i)]
    | Some p =>
        [whole (field 64 (snd p) 0 31);
         EInsn10 (t_insn i) ((ea10 + 4) mod 2 ^ 64) None None None False False None None None None]
    end.

  (** ** Events *)
  Definition i_events : list event :=
    match t_addr i with
    | Some _ =>
        match i_given, snd i_trans with
        | Some y, _ => [(WithIXlate, 1); (InsnPages (host_shift (y_walk y)), 1)]
        | None, Some _ => [(WithIXlate, 1)]
        | None, None => [(WithoutIXlateErat, 1)]
        end
    | None =>
        let '(_, h, _) := z_cur z in
        if inside then [(if h =? 0 then WithoutIXlateIeara else WithIXlate, 1)] else []
    end.
  Definition d_events : list event :=
    match data10 with
    | None => []
    | Some p =>
        match d_given p, snd (d_trans seen_i p) with
        | Some y, _ => [(WithDXlate, 1); (DataPages (host_shift (y_walk y)), 1)]
        | None, Some _ => [(WithDXlate, 1)]
        | None, None => [(WithoutDXlateErat, 1)]
        end
    end.
  Definition insn10_events (full : bool) : list event :=
    [(RecordsProcessed, 1); (InsnScanned, 1)]
    ++ [(InsnProcessed, 1)]
    ++ stamps_events (stamps_of (insn10_words i (z_ea z)))
    ++ if full && walks10 then i_events ++ d_events else [].

  (** ** Well-formed *)
  (** The page tables of the machine, if they do not change. *)
  Variable tb : option Resume_Spec.tables.
  (** A walk that is used is of a guest with translation on.  It is complete; or
      the page tables do not change, and it leaves out only what the walks
      before, [h], showed (see C76). *)
  Definition given_ok (h : list Resume_Spec.request) (hv reloc : bool) (g : option xl) (a r : N) : Prop :=
    match g with
    | None => True
    | Some y =>
        hv = false /\ reloc = true /\ hw_ra (snd (fw_final (y_walk y))) = r
        /\ match tb with
           | None => fw_ok (y_walk y) /\ y_records y = full_records (y_walk y)
           | Some T =>
               Resume_Spec.request_ok T (asked y a) /\ y_walk y = Resume_Spec.whole_walk T (asked y a)
               /\ exists c, Resume_Spec.cut_ok T h (asked y a) c /\ y_records y = Resume_Spec.cut_records (y_walk y) c
           end
    end.
  Fixpoint data_ok (h : list Resume_Spec.request) (l : list (sword * sword)) : Prop :=
    match l with
    | [] => True
    | p :: l' => given_ok h (t_hv i) (t_dr i) (d_given p) (dea10 p) (dra10 p) /\ data_ok (asked_d h p) l'
    end.
  (** Address and real address have the same place in the page. *)
  Definition same_place (t : trans) (a r : N) : Prop :=
    let '(_, h, _) := t in h = 0 \/ r mod 2 ^ h / 4096 = a mod 2 ^ h / 4096.
  Definition insn10_ok (full : bool) : Prop :=
    (* words *)
    Forall sword_ok (insn10_words i (z_ea z))
    /\ match insn10_words i (z_ea z) with p :: _ => fst p = [] | [] => False end
    /\ shown10 ea10 (t_branch i) (t_raw i) (t_insn i) /\ t_raw i < 2 ^ 32 /\ t_insn i < 2 ^ 32 /\ t_off i < 32
    /\ match t_addr i with Some (h, _, _) => snd (fst h) < 2 ^ 34 /\ snd h < 2 ^ 8 | None => True end
    /\ Forall (xl_ok false) (t_ixl i) /\ Forall (xl_ok true) (t_dxl i)
    /\ (length (t_ixl i) <= 2)%nat /\ (length (t_dxl i) <= 2)%nat
    /\ (if t_esid i then length (t_data i) = 1%nat else (length (t_data i) <= 2)%nat)
    (* without records only one data address is read *)
    /\ (full = false -> (length (t_data i) <= 1)%nat)
    (* segments *)
    /\ (t_esid i = true -> walks10 = false
        /\ Forall (fun p => untagged (snd (fst p)) /\ untagged (snd (snd p))) (t_data i))
    (* no walk is left over *)
    /\ (t_addr i <> None -> t_ixl i <> [] -> i_given <> None)
    /\ (t_dxl i <> [] -> t_data i <> [])
    (* walks *)
    /\ (full = true -> given_ok (z_asked z) (t_hv i) (t_ir i) i_given ea10 ra10
        /\ data_ok asked_i (t_data i)
        /\ (t_esid i = false -> same_place cur10 ea10 ra10)
        /\ match data10 with Some p => same_place dtrans10 (dea10 p) (dra10 p) | None => True end).
End STEP10.

(** ** The trace *)
Inductive item10 := JStamp (w : N) (r : hrec) | JInsn (i : insn10) | JOther (w : N).
Definition words10 (z : st10) (x : item10) : list N :=
  match x with
  | JStamp w _ => [w]
  | JInsn i => words_of (insn10_words i (z_ea z))
  | JOther w => [w]
  end.
Section TRACE10.
  Variable full : bool.
  Definition item10_ok (tb : option Resume_Spec.tables) (z : st10) (x : item10) : Prop :=
    match x with
    | JStamp w r => w < 2 ^ 64 /\ stamp w r
    | JInsn i => insn10_ok i z tb full
    | JOther w => other w
    end.
  Definition step10 (z : st10) (x : item10) : st10 :=
    match x with JInsn i => next10 i z full | _ => z end.
  Fixpoint trace10_by (tb : option Resume_Spec.tables) (z : st10) (l : list item10) : Prop :=
    match l with [] => True | x :: l' => item10_ok tb z x /\ trace10_by tb (step10 z x) l' end.
  (** All walks are complete, or some page tables explain them. *)
  Definition trace10_ok (z : st10) (l : list item10) : Prop :=
    exists tb, match tb with Some T => Resume_Spec.tables_ok T | None => True end /\ trace10_by tb z l.
  Fixpoint file10 (z : st10) (l : list item10) : list N :=
    match l with [] => [] | x :: l' => words10 z x ++ file10 (step10 z x) l' end.
  Fixpoint records10 (z : st10) (l : list item10) : list erec :=
    match l with
    | [] => []
    | x :: l' =>
        match x with
        | JStamp _ r => [EStamp r]
        | JInsn i => map (fun p => EStamp (snd p)) (stamps_of (insn10_words i (z_ea z))) ++ record_of10 i z
        | JOther _ => []
        end ++ records10 (step10 z x) l'
    end.
  Fixpoint insns10 (z : st10) (l : list item10) : list (N * N) :=
    match l with
    | [] => []
    | x :: l' =>
        match x with JInsn i => [(ea10 i z, t_insn i)] | _ => [] end ++ insns10 (step10 z x) l'
    end.
  Fixpoint events10 (z : st10) (l : list item10) : list event :=
    match l with
    | [] => []
    | x :: l' =>
        match x with
        | JStamp _ r => stamp_events r
        | JInsn i => insn10_events i z full
        | JOther _ => []
        end ++ events10 (step10 z x) l'
    end.
End TRACE10.
