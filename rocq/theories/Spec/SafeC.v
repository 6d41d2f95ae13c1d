(** What bounded string functions are for. *)
From Coq Require Import ZArith List.
From Verif Require Import Base.
Import ListNotations.
Open Scope Z_scope.

(** The block holds the text [s], with its NUL. *)
Definition holds (block s : bytes) : Prop := ~ In 0 s /\ exists behind, block = s ++ 0 :: behind.
(** Of the block, [s] is what is read when at most [n] characters are asked for:
    [n] characters, or fewer up to a NUL. *)
Definition offers (block : bytes) (n : Z) (s : bytes) : Prop :=
  ~ In 0 s /\ ((len s = n /\ exists behind, block = s ++ behind) \/ (len s < n /\ exists behind, block = s ++ 0 :: behind)).
(** Only the first [n] octets of the block may differ. *)
Definition within (n : Z) (before after : bytes) : Prop :=
  len after = len before /\ forall i, n <= Z.of_nat i -> nth_error after i = nth_error before i.
(** The longest start of [s] without (with only) characters of [set]. *)
Fixpoint span (keep : Z -> Prop) (s : bytes) (n : Z) : Prop :=
  match s with
  | [] => n = 0
  | c :: s' => (~ keep c /\ n = 0) \/ (keep c /\ span keep s' (n - 1) /\ 0 < n)
  end.
Definition ignoring_case (a b : bytes) : Prop := map toupper a = map toupper b.
(** [p] occurs in [s] at [i]. *)
Definition occurs_at (p s : bytes) (i : Z) : Prop := exists a b, s = a ++ p ++ b /\ len a = i.
