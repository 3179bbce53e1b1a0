(** * Specification of ledger programs: inputs, sums, products of inputs, roundings. *)
From Coq Require Import ZArith List QArith Qabs.
From Verif Require Import Rust Model_Base Spec Spec_History Spec_Machine.
Open Scope Z_scope.

(** Every variable is either small - for inputs, of at most 18 integral and 9
    fractional digits - or not. Small variables are written by parsing, conversion and copying; products are taken of
    small ones, sums and differences of all. *)
Definition ledger_call (small : nat -> bool) (c : call) : Prop :=
  match c with
  | Parse k bs reset => reset = true /\ exists n, numeral_ok n /\ bs = numeral_bytes n /\ -30 <= numeral_exp n <= 65 /\
      0 <= numeral_frac n <= (if small k then 9 else 27) /\ numeral_digits n - numeral_frac n <= (if small k then 18 else 36)
  | FromI64 k n => -9223372036854775808 <= n <= 9223372036854775807 /\ (small k = true -> Z.abs n < 10 ^ 18)
  | FromU64 k n => 0 <= n <= 18446744073709551615 /\ (small k = true -> Z.abs n < 10 ^ 18)
  | Zero _ | One _ | SetNeg _ | SetPos _ => True
  | Copy i k => small k = true -> small i = true
  | Add _ _ k | Sub _ _ k => small k = false
  | Mul i j k => small i = true /\ small j = true /\ small k = false
  | RoundTo _ k f => small k = false /\ 0 <= f <= 27
  | Round _ _ | Rem _ _ _ | Div _ _ _ _ => False
  end.

(** The program on rational numbers, which all stay below 10^36. In a debug
    build the first factor of a product is at least one, or one of the factors is zero. *)
Inductive ledger_run (m : build) : (nat -> Q) -> list call -> (nat -> Q) -> Prop :=
| l_nil x : ledger_run m x nil x
| l_cons x c cs v x' : meaning x c v -> (Qabs v < pow10 36)%Q ->
    (forall i j k, c = Mul i j k -> m = Debug -> (x i == 0)%Q \/ (x j == 0)%Q \/ (1 <= Qabs (x i))%Q) ->
    ledger_run m (write x (target c) v) cs x' -> ledger_run m x (c :: cs) x'.

(** A run of the program in which every call returns, without error. *)
Inductive ok_history (m : build) : state -> list call -> state -> Prop :=
| ok_nil st : ok_history m st nil st
| ok_cons st c cs d st' : perform m st c = Ret (Ok tt, d) ->
    ok_history m (write st (target c) d) cs st' -> ok_history m st (c :: cs) st'.

(** An invoice: for every line, given by two strings, the product is added to the
    total, which is variable 3. *)
Definition invoice (lines : list (numeral * numeral)) : list call :=
  flat_map (fun '(p, q) => Parse 0 (numeral_bytes p) true :: Parse 1 (numeral_bytes q) true ::
                           Mul 0 1 2 :: Add 3 2 4 :: Copy 4 3 :: nil) lines.
Definition invoice_total (lines : list (numeral * numeral)) : Q :=
  fold_right (fun '(p, q) s => (numeral_value p * numeral_value q + s)%Q) 0%Q lines.
Definition invoice_size (lines : list (numeral * numeral)) : Q :=
  fold_right (fun '(p, q) s => (Qabs (numeral_value p * numeral_value q) + s)%Q) 0%Q lines.
(** Numerals of at most 18 integral and 9 fractional digits. *)
Definition entry_ok (n : numeral) : Prop :=
  numeral_ok n /\ -30 <= numeral_exp n <= 65 /\ 0 <= numeral_frac n <= 9 /\ numeral_digits n - numeral_frac n <= 18.
(** What a debug build needs of a line: a factor is zero, or the first factor is at least one
    or written with an integral digit, as in [0.5] but not in [.5]. *)
Definition debug_line (pq : numeral * numeral) : Prop :=
  (numeral_value (fst pq) == 0)%Q \/ (numeral_value (snd pq) == 0)%Q \/ (1 <= Qabs (numeral_value (fst pq)))%Q \/ 1 <= numeral_digits (fst pq) - numeral_frac (fst pq).
