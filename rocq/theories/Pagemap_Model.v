(** Model of ptracer/pagemap.c. *)
Require Import NArith List Bool.
Require Import Verif.Word.
Import ListNotations.
Local Open Scope N_scope.

(* pagemap.c:26-27 *)
Definition REFRESH_INTERVAL_ISIDE : N := 10000.
Definition REFRESH_INTERVAL_DSIDE : N := 100.
(* pagemap.c:29-33 *)
Record map := mk_map { m_ea : N; m_pa : N; m_seq : N }.
(* pagemap.c:37, 41 *)
Definition BASE_MAP_SIZE : N := 4096.
Definition HUGE_MAP_SIZE : N := 4096.
(** ffs(~(size - 1)) - 1 for the sizes given in main.c:413 *)
Definition base_pshift : N := 16.
Definition huge_pshift : N := 21.

(* pagemap.c:35-43: static, so all zero *)
Record pstate := mk_pstate { access_seq : N; base_map : N -> map; huge_map : N -> map }.
Definition init_state : pstate :=
  mk_pstate 0 (fun _ => mk_map 0 0 0) (fun _ => mk_map 0 0 0).
Definition set (f : N -> map) (i : N) (v : map) : N -> map :=
  fun j => if j =? i then v else f j.

(** What reading the two files at an index gives now; [None] is an error. *)
Record kernel := mk_kernel { pagemap_at : N -> option N; kpageflags_at : N -> option N }.

(** Result: the tracer exits, no translation, or address and page shift. *)
Inductive pres := PExit | PNone (st : pstate) | PAns (st : pstate) (pa pshift : N).

(* pagemap.c:73-152 *)
Definition ea_to_pa (k : kernel) (st : pstate) (ea : N) (iside : bool) : pres :=
  let bea_page := N.shiftr ea base_pshift in
  let hea_page := N.shiftr ea huge_pshift in
  let max_interval := if iside then REFRESH_INTERVAL_ISIDE else REFRESH_INTERVAL_DSIDE in
  let seq := u32 (access_seq st + 1) in
  let st := mk_pstate seq (base_map st) (huge_map st) in
  let fresh (e : map) := u32 (seq + w32 - m_seq e) <? max_interval in
  let b := base_map st (bea_page mod BASE_MAP_SIZE) in
  let h := huge_map st (hea_page mod BASE_MAP_SIZE) in
  if (m_ea b =? bea_page) && fresh b then PAns st (m_pa b) base_pshift
  else if (m_ea h =? hea_page) && fresh h then PAns st (m_pa h) huge_pshift
  else
    match pagemap_at k bea_page with
    | None => PExit
    | Some pagemap =>
        if N.land pagemap (N.shiftl 1 63) =? 0 then PNone st
        else
          let pa := u64 (N.shiftl (N.land pagemap 0x3fffffffffffff) base_pshift) in
          match kpageflags_at k (N.shiftr pa base_pshift) with
          | None => PExit
          | Some flags =>
              if negb (N.land flags (N.lor (N.shiftl 1 17) (N.shiftl 1 22)) =? 0) then
                PAns (mk_pstate seq (base_map st)
                        (set (huge_map st) (hea_page mod HUGE_MAP_SIZE) (mk_map hea_page pa seq)))
                     pa huge_pshift
              else
                PAns (mk_pstate seq
                        (set (base_map st) (bea_page mod BASE_MAP_SIZE) (mk_map bea_page pa seq))
                        (huge_map st))
                     pa base_pshift
          end
    end.
