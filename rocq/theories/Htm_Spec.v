(** The word stream of a hardware trace. *)
Require Import NArith ZArith List Bool.
Require Import Verif.Word Verif.Codec_Types.
Import ListNotations.
Local Open Scope N_scope.

(** The bytes of word [i]; fewer than eight behind the end. *)
Definition chunk (bytes : list N) (i : nat) : list N := firstn 8 (skipn (8 * i) bytes).
(** Word [i] as it is read: [stale i] are the bytes in memory before. *)
Definition padded (bytes : list N) (stale : Z -> list N) (i : nat) : list N :=
  chunk bytes i ++ skipn (length (chunk bytes i)) (stale (Z.of_nat i)).
Definition word_at (bytes : list N) (stale : Z -> list N) (i : nat) : N :=
  be_val (padded bytes stale i).
(** Sum of the two halves, in 32 bits. *)
Definition halves (v : N) : N := (v / 2 ^ 32 mod 2 ^ 32 + v mod 2 ^ 32) mod 2 ^ 32.
Fixpoint sum_to (bytes : list N) (stale : Z -> list N) (n : nat) : N :=
  match n with
  | O => 0
  | S n' => (sum_to bytes stale n' + halves (word_at bytes stale n')) mod 2 ^ 64
  end.
(** Words of the file; an incomplete last one counts. *)
Definition total (bytes : list N) : nat := ((length bytes + 7) / 8)%nat.

(** ** Reading with steps back *)
(** Words that can be had from a file that ends in a read error ([bad]) or in
    end of file.  In the second case one more word comes out than the file
    has. *)
Definition words (bytes : list N) (bad : bool) : nat :=
  if bad then (length bytes / 8)%nat else (total bytes + 1)%nat.

Inductive op := Fetch | Back.
(** What the caller sees: a word, with the number of words, their sum and the
    offset behind them; the end; a step back with the same numbers. *)
Inductive seen :=
| Word (v : N) (nr sum off : N) | End | Moved (nr sum off : N)
| Stuck         (** the program stops: second step back over a word *)
| Overflow      (** more than 2^31-1 words *)
| Misuse.       (** step back without a word before *)

(** [p]: words before the position; [r]: where the last step back started;
    [last]: whether the last operation gave a word. *)
Fixpoint reading (bytes : list N) (bad : bool) (stale : Z -> list N)
    (ops : list op) (p r : nat) (last : bool) : list seen :=
  match ops with
  | [] => []
  | Fetch :: ops' =>
      if (p =? words bytes bad)%nat then End :: reading bytes bad stale ops' p r false
      else if (Z.of_nat p =? 2 ^ 31 - 1)%Z then [Overflow]
      else Word (word_at bytes stale p) (N.of_nat (S p) mod 2 ^ 32) (sum_to bytes stale (S p))
                (8 * N.of_nat (S p) mod 2 ^ 64)
           :: reading bytes bad stale ops' (S p) r true
  | Back :: ops' =>
      if negb last then [Misuse]
      else if (r =? p)%nat then [Stuck]
      else Moved (N.of_nat (pred p) mod 2 ^ 32) (sum_to bytes stale (pred p))
                 (8 * N.of_nat (pred p) mod 2 ^ 64)
           :: reading bytes bad stale ops' (pred p) p false
  end.
