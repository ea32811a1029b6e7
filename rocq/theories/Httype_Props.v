(** C93: the elements of a key in a typed hash table. *)
Require Import NArith List Bool Permutation Lia.
Require Import Verif.Word Verif.Htable_Model Verif.Htable_Spec Verif.Httype_Model Verif.Httype_Proofs.
Import ListNotations.
Local Open Scope N_scope.

(** After any history, getfirst and getnext give every element that has the
    key, each as often as it was added; delkey removes one of them, and
    reports false, with no change, exactly if there is none. *)
Theorem C93_keys : forall K (keyof : N -> K) hashfn eqfn, (forall p k, eqfn p k = true <-> keyof p = k) ->
  forall t os h, 1 <= t <= 63 -> (h = ht_init \/ exists expect, h = fst (ht_init_sized true expect)) ->
  Forall (fun o => top_is t (op_ptr o)) os -> N.of_nat (length os) <= 805306368 ->
  exists h' rs c, run_ops (fun p => hashfn (keyof p)) os h = HtOk (h', rs) /\ explains os rs [] c /\
    forall k,
      (exists l, get_all K hashfn eqfn h' k = HtOk l /\ Permutation l (filter (fun p => eqfn p k) c)) /\
      exists h'' r, delkey K keyof hashfn eqfn h' k = HtOk (h'', r) /\
        if r then exists p c', keyof p = k /\ Permutation c (p :: c') /\ shows (fun p => hashfn (keyof p)) h'' c'
        else h'' = h' /\ forall p, In p c -> keyof p <> k.
Proof. exact typed. Qed.
Print Assumptions C93_keys.

(** The key of a pointer is its last digit; the hash is the same for all keys
    of the same parity. *)
Definition ex_key (p : N) : N := p mod 16.
Definition ex_hash (k : N) : N := k mod 2.
Definition ex_eq (p k : N) : bool := p mod 16 =? k.
Definition ex : list hop :=
  [OpAdd true 0x1013; OpAdd true 0x1025; OpAdd true 0x1033; OpAdd true 0x1044; OpAdd true 0x1053; OpAdd true 0x1033;
   OpDel 0x1053; OpAdd true 0x1065].
Example C93_ex : match run_ops (fun p => ex_hash (ex_key p)) ex ht_init with
  | HtOk (h, _) => get_all N ex_hash ex_eq h 3 = HtOk [0x1013; 0x1033; 0x1033]
      /\ get_all N ex_hash ex_eq h 5 = HtOk [0x1025; 0x1065]
      /\ get_all N ex_hash ex_eq h 7 = HtOk []
      /\ get_all N ex_hash ex_eq h 4 = HtOk [0x1044]
      /\ delkey N ex_key ex_hash ex_eq h 7 = HtOk (h, false)
      /\ match delkey N ex_key ex_hash ex_eq h 3 with
         | HtOk (h', r) => r = true /\ get_all N ex_hash ex_eq h' 3 = HtOk [0x1033; 0x1033] /\ h_elems h' = 5
         | HtErr _ => False
         end
  | HtErr _ => False
  end.
Proof. vm_compute. repeat split; reflexivity. Qed.
Example C93_ex_hyps : (forall p k, ex_eq p k = true <-> ex_key p = k) /\ Forall (fun o => top_is 12 (op_ptr o)) ex.
Proof. split; [intros p k; apply N.eqb_eq|]. repeat constructor; vm_compute; congruence. Qed.
